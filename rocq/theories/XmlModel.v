(** Encoding a BOM as an XML tree and decoding an XML tree: encoding/xml driven by the
    struct tags (TypeTable.v), with the MarshalXML and UnmarshalXML methods of
    /repo/cyclonedx_xml.go. *)
From Verif Require Import Base Types Univ TypeTable Wt Reify Consts LinkModel Version Numbers Utf8 JsonModel.
Local Open Scope string_scope.

(** ** Trees *)

(** An element or a piece of character data, as xml.Decoder.Token delivers them: entities
    are resolved, comments, directives and processing instructions are left out (no method
    looks at them). An element has the name space its prefix stands for, a local name and
    attributes. The name space of an attribute is left out: nothing looks at it. *)
Inductive xml :=
| XText (s : string)
| XElem (space local : string) (attrs : list (string * string)) (kids : list xml).

Inductive xerr :=
| XBoth                    (* both alternatives of a choice are set *)
| XNeither                 (* a license without id and name *)
| XUnknown (name : string) (* unknown element *)
| XExpected (name : string)(* expected element type *)
| XValue                   (* strconv error *)
| XDepth                   (* errUnmarshalDepth *)
| XEOF                     (* io.EOF *)
| XNotConsumed             (* an UnmarshalXML method did not consume the entire element *)
| XInvalidSpecVersion      (* ErrInvalidSpecVersion *)
| XKind.                   (* cannot unmarshal into this type *)

(** xml.EscapeText and EscapeString: bytes that are not valid UTF-8, and characters outside
    the range of XML, are replaced by U+FFFD. (isInCharacterRange; encoded surrogates are
    not valid UTF-8 in Go.) *)
Definition xml_byte (a : ascii) : bool :=
  (0x20 <=? byte_of a)%N || existsb (N.eqb (byte_of a)) [0x9; 0xA; 0xD]%N.
Definition xml_three (a b c : ascii) : bool :=
  negb ((byte_of a =? 0xEF)%N && (byte_of b =? 0xBF)%N && (0xBE <=? byte_of c)%N).
Fixpoint xml_clean (s : string) : string :=
  match s with
  | "" => ""
  | String a s1 =>
      if one a then if xml_byte a then String a (xml_clean s1) else replacement ++ xml_clean s1
      else match s1 with
           | "" => replacement
           | String b s2 =>
               if two a b then String a (String b (xml_clean s2))
               else match s2 with
                    | "" => replacement ++ xml_clean s1
                    | String c s3 =>
                        if three a b c then
                          if xml_three a b c then String a (String b (String c (xml_clean s3))) else replacement ++ xml_clean s3
                        else match s3 with
                             | "" => replacement ++ xml_clean s1
                             | String d s4 =>
                                 if four a b c d then String a (String b (String c (String d (xml_clean s4))))
                                 else replacement ++ xml_clean s1
                             end
                    end
           end
  end.

(** ** Tags and methods *)

Inductive xmode := XAttribute | XCharData | XElement.
Record xinfo := mkX { x_mode : xmode; x_parents : list string; x_name : string; x_omit : bool }.

(** encoding/xml structFieldInfo, getTypeInfo; [None] if the field is not part of the
    XML. The field XMLName is not part of it but names the element, see [xml_name]. *)
Definition xml_info (f : field) : option xinfo :=
  if String.eqb (f_name f) "XMLName" then None
  else match tag_get "xml" (f_tag f) with
       | None => Some (mkX XElement [] (f_name f) false)
       | Some tag =>
           if String.eqb tag "-" then None
           else match split_on "," tag with
                | [] => None
                | n :: opts =>
                    let has o := existsb (String.eqb o) opts in
                    let path := split_on ">" (if String.eqb n "" then f_name f else n) in
                    let mode := if has "attr" then XAttribute else if has "chardata" then XCharData else XElement in
                    Some (mkX mode (removelast path) (last path "") (has "omitempty"))
                end
       end.
Definition xml_name (fs : list field) : option string :=
  match find (fun f => String.eqb (f_name f) "XMLName") fs with
  | Some f => tag_get "xml" (f_tag f)
  | None => None
  end.

Inductive method :=
| MNone | MRef | MCopyright | MDependency | MEnvironment | MLicense | MLicenses | MDataset | MSpecVersion
| MState | MExtension | MAsserter | MIKEv2 | MTools | MEvidence | MData | MDefinitions.

(** The types that implement xml.Marshaler. *)
Definition xml_methods : list (string * method) :=
  [ ("BOMReference", MRef); ("Copyright", MCopyright); ("Dependency", MDependency);
    ("EnvironmentVariables", MEnvironment); ("License", MLicense); ("Licenses", MLicenses);
    ("MLDatasetChoice", MDataset); ("SpecVersion", MSpecVersion); ("CertificateState", MState);
    ("CertificateExtension", MExtension); ("AsserterChoice", MAsserter);
    ("IKEv2Auth", MIKEv2); ("IKEv2Enc", MIKEv2); ("IKEv2Integ", MIKEv2); ("IKEv2Ke", MIKEv2); ("IKEv2Prf", MIKEv2);
    ("ToolsChoice", MTools); ("Evidence", MEvidence); ("DataClassification", MData); ("Definitions", MDefinitions) ].
Definition marshaler (t : ty) : method :=
  match t with TRef n => match assoc n xml_methods with Some m => m | None => MNone end | _ => MNone end.
(** The types whose pointers implement xml.Unmarshaler: the same without License. *)
Definition unmarshaler (t : ty) : method := match marshaler t with MLicense => MNone | m => m end.

(** ** Encoding *)

Definition xout := result xerr (list xml).

(** A value that is being encoded: [enc t omit name] is printer.marshalValue for the
    type [t], past the check of omitempty, with the element name [name]; [omit] is the
    option omitempty, which the elements of a slice inherit. [subs] are the pointee, the
    elements or the fields. *)
Inductive node := Node (v : val) (enc : ty -> bool -> string -> xout) (subs : list node).
Definition nval (n : node) : val := match n with Node v _ _ => v end.
Definition nenc (n : node) : ty -> bool -> string -> xout := match n with Node _ e _ => e end.
Definition nsubs (n : node) : list node := match n with Node _ _ s => s end.
Definition nstr (n : node) : string := str_of (nval n).
Definition set (n : node) : bool := nonnil (nval n).
Definition filled (n : node) : bool := nonempty (nval n).
Definition nil_node : node := Node (VPtr None) (fun _ _ _ => Ok []) [].

(** printer.marshalSimple *)
Definition simple (v : val) : string :=
  match v with
  | VStr s => s
  | VInt z => format_int z
  | VBool b => if b then "true" else "false"
  | VFlt f => xml_float f
  | _ => ""
  end.
Definition text (s : string) : list xml := if String.eqb s "" then [] else [XText (xml_clean s)].
Definition elem (name : string) (attrs : list (string * string)) (kids : list xml) : xml := XElem "" name attrs kids.
Definition attr (name s : string) : string * string := (name, xml_clean s).
Definition attr_if (name s : string) : list (string * string) := if String.eqb s "" then [] else [attr name s].
Definition text_elem (name s : string) : xml := elem name [] (text s).

Fixpoint concat_all {A} (f : A -> xout) (l : list A) : xout :=
  match l with
  | [] => Ok []
  | x :: l' => bind (f x) (fun a => bind (concat_all f l') (fun b => Ok (a ++ b)%list))
  end.

(** printer.marshalValue with the check of omitempty *)
Definition enc_checked (n : node) (t : ty) (omit : bool) (name : string) : xout :=
  if (omit && empty_value (nval n))%bool then Ok [] else nenc n t omit name.

(** printer.marshalValue, the attributes; printer.marshalAttr *)
Definition enc_attr (f : field) (n : node) : list (string * string) :=
  match xml_info f with
  | Some (mkX XAttribute _ name omit) =>
      if (omit && empty_value (nval n))%bool then []
      else match nval n with
           | VPtr None => []
           | VPtr (Some x) => [attr name (simple x)]
           | v => [attr name (simple v)]
           end
  | _ => []
  end.

(** printer.marshalStruct with parentStack. Two fields with the same parent would share
    it; no struct has such fields (XmlTable.v). *)
Definition wrap (parents : list string) (kids : list xml) : list xml := fold_right (fun p ks => [elem p [] ks]) kids parents.
Definition enc_field (f : field) (n : node) : xout :=
  match xml_info f with
  | Some (mkX XElement parents name omit) =>
      match nval n with
      | VPtr None => Ok []
      | _ => bind (enc_checked n (f_ty f) omit name) (fun ks => Ok (wrap parents ks))
      end
  | Some (mkX XCharData _ _ _) => Ok (text (nstr n))
  | _ => Ok []
  end.
Fixpoint enc_attrs (fs : list field) (ns : list node) : list (string * string) :=
  match fs, ns with
  | f :: fs', n :: ns' => (enc_attr f n ++ enc_attrs fs' ns')%list
  | _, _ => []
  end.
Fixpoint enc_fields (fs : list field) (ns : list node) : xout :=
  match fs, ns with
  | f :: fs', n :: ns' => bind (enc_field f n) (fun a => bind (enc_fields fs' ns') (fun b => Ok (a ++ b)%list))
  | _, _ => Ok []
  end.
Definition enc_struct (fs : list field) (ns : list node) (name : string) : xout :=
  bind (enc_fields fs ns) (fun ks =>
    Ok [elem (match xml_name fs with Some n => n | None => name end) (enc_attrs fs ns) ks]).

(** The strings of a list of strings. *)
Definition strings (v : val) : list string :=
  match v with VPtr (Some (VSlice (Some l))) => map str_of l | _ => [] end.
(** The fields of the struct a pointer leads to; the elements of the list it leads to. *)
Definition pointee (n : node) : list node := match nsubs n with [x] => nsubs x | _ => [] end.

(** /repo/cyclonedx_xml.go:128-144 *)
Definition enc_environment (n : node) : xout :=
  match nsubs n with
  | [prop; value] =>
      if (set prop && filled value)%bool then Err XBoth
      else if set prop then nenc prop (TPtr (TRef "Property")) false "environmentVar"
      else if filled value then Ok [text_elem "value" (nstr value)]
      else Ok []
  | _ => Err XKind
  end.

(** /repo/cyclonedx_xml.go:251-257, 215-219 *)
Definition enc_detail (n : node) : xout :=
  match nsubs n with
  | [id; _; text; url] => enc_struct fields_licenseExpressionDetailXML [id; text; url] "details"
  | _ => Err XKind
  end.
(** /repo/cyclonedx_xml.go:230-272 *)
Definition enc_choice (n : node) : xout :=
  match nsubs n with
  | [license; expression; details; ack; ref; _; _] =>
      if (set license && filled expression)%bool then Err XBoth
      else if set license then nenc license (TPtr (TRef "License")) false "license"
      else if filled expression then
        let acktext := match nval ack with VPtr (Some (VStr s)) => s | _ => "" end in
        if set details then
          bind (concat_all enc_detail (pointee details)) (fun ks =>
            Ok [elem "expression-detailed"
                  (attr "expression" (nstr expression) :: attr_if "acknowledgement" acktext ++ attr_if "bom-ref" (nstr ref))%list ks])
        else Ok [elem "expression" (attr_if "acknowledgement" acktext ++ attr_if "bom-ref" (nstr ref))%list (text (nstr expression))]
      else Ok []
  | _ => Err XKind
  end.

(** /repo/cyclonedx_xml.go:1155-1165 *)
Definition enc_patent (n : node) : xout :=
  match nsubs n with
  | [patent; family] =>
      if set patent then nenc patent (TPtr (TRef "Patent")) false "patent"
      else if set family then nenc family (TPtr (TRef "PatentFamily")) false "patentFamily"
      else Ok []
  | _ => Err XKind
  end.

Definition ref_elem (name r : string) : xml := elem name [attr "ref" r] [].
Definition within (name : string) (r : xout) : xout := bind r (fun ks => Ok [elem name [] ks]).

(** The MarshalXML methods. [v] is the receiver, [ns] its fields or elements, [name] the
    name of the start element. *)
Definition marshal (m : method) (fs : list field) (v : val) (ns : list node) (name : string) : xout :=
  match m, ns with
  (* /repo/cyclonedx_xml.go:34-36 *)
  | MRef, _ => Ok [ref_elem name (str_of v)]
  (* /repo/cyclonedx_xml.go:47-49 *)
  | MCopyright, [txt] => Ok [text_elem name (nstr txt)]
  (* /repo/cyclonedx_xml.go:68-88 *)
  | MDependency, [ref; deps; provides] =>
      Ok [elem name [attr "ref" (nstr ref)]
            (map (ref_elem "dependency") (strings (nval deps)) ++ map (ref_elem "provides") (strings (nval provides)))%list]
  (* /repo/cyclonedx_xml.go:118-147 *)
  | MEnvironment, _ => match ns with [] => Ok [] | _ => within name (concat_all enc_environment ns) end
  (* /repo/cyclonedx_xml.go:188-197 *)
  | MLicense, _ :: id :: lname :: _ =>
      if (filled id && filled lname)%bool then Err XBoth
      else if negb (filled id || filled lname)%bool then Err XNeither
      else enc_struct fs ns name
  (* /repo/cyclonedx_xml.go:221-275 *)
  | MLicenses, _ => match ns with [] => Ok [] | _ => within name (concat_all enc_choice ns) end
  (* /repo/cyclonedx_xml.go:356-364 *)
  | MDataset, [ref; data] =>
      if filled ref then enc_struct fields_mlDatasetChoiceRefXML [ref] name
      else if set data then nenc data (TPtr (TRef "ComponentData")) false name
      else Ok []
  (* /repo/cyclonedx_xml.go:385-387 *)
  | MSpecVersion, _ => Ok [text_elem name (SpecVersion_String (int_of v))]
  (* /repo/cyclonedx_xml.go:431-449 *)
  | MState, [predefined; custom] =>
      if (set predefined && set custom)%bool then Err XBoth
      else if set predefined then enc_struct fields_predefinedCertificateStateXML (pointee predefined) name
      else if set custom then enc_struct fields_customCertificateStateXML (pointee custom) name
      else Ok []
  (* /repo/cyclonedx_xml.go:486-503 *)
  | MExtension, [common; custom] =>
      if (set common && set custom)%bool then Err XBoth
      else if set common then enc_struct fields_commonCertificateExtensionXML (pointee common) name
      else if set custom then enc_struct fields_customCertificateExtensionXML (pointee custom) name
      else Ok []
  (* /repo/cyclonedx_xml.go:529-549 *)
  | MAsserter, [org; ind; ref] =>
      if (set org && set ind)%bool then Err XBoth
      else if set org then within name (nenc org (TPtr (TRef "OrganizationalEntity")) false "organization")
      else if set ind then within name (nenc ind (TPtr (TRef "OrganizationalContact")) false "contact")
      else if set ref then within name (nenc ref (TPtr (TRef "BOMReference")) false "ref")
      else Ok []
  (* /repo/cyclonedx_xml.go:566-578, 598-610, 632-644, 664-676, 696-708 *)
  | MIKEv2, ref :: _ => if filled ref then Ok [text_elem name (nstr ref)] else enc_struct fs ns name
  (* /repo/cyclonedx_xml.go:748-766 *)
  | MTools, [tools; comps; servs] =>
      if (set tools && (set comps || set servs))%bool then Err XBoth
      else if set tools then enc_struct fields_toolsChoiceMarshalXML [tools; nil_node; nil_node] name
      else if (set comps || set servs)%bool then enc_struct fields_toolsChoiceMarshalXML [nil_node; comps; servs] name
      else Ok []
  (* /repo/cyclonedx_xml.go:851-884; the list of one identity of line 858 is encoded as
     its element *)
  | MEvidence, [identity; occurrences; callstack; licenses; copyright] =>
      if (set identity || set occurrences || set callstack || set licenses || set copyright)%bool then
        bind (match pointee identity with
              | [one; many] =>
                  if set many then nenc many (TPtr (TSlice (TRef "EvidenceIdentity"))) true "identity"
                  else if set one then nenc one (TPtr (TRef "EvidenceIdentity")) true "identity"
                  else Ok []
              | _ => Ok []
              end) (fun ids =>
        bind (enc_fields (tl fields_EvidenceMarshalXML) [occurrences; callstack; licenses; copyright]) (fun ks =>
          Ok [elem name [] (ids ++ ks)%list]))
      else Ok []
  (* /repo/cyclonedx_xml.go:955-1032 *)
  | MData, [flow; classification; dname; description; governance; source; destination] =>
      bind (if set governance then nenc governance (TPtr (TRef "DataGovernance")) false "governance" else Ok []) (fun gov =>
        let urls place n := match strings (nval n) with [] => [] | l => [elem place [] (map (text_elem "url") l)] end in
        Ok [elem "dataflow" (attr_if "name" (nstr dname) ++ attr_if "description" (nstr description))%list
              ((if (filled classification || filled flow)%bool
                then [elem "classification" (attr_if "flow" (nstr flow)) (text (nstr classification))] else [])
               ++ gov ++ urls "source" source ++ urls "destination" destination)%list])
  (* /repo/cyclonedx_xml.go:1130-1172 *)
  | MDefinitions, [standards; patents] =>
      bind (if set standards
            then within "standards" (concat_all (fun s => nenc s (TRef "StandardDefinition") false "standard") (pointee standards))
            else Ok []) (fun a =>
      bind (if set patents then within "patents" (concat_all enc_patent (pointee patents)) else Ok []) (fun b =>
        Ok [elem name [] (a ++ b)%list]))
  | _, _ => Err XKind
  end.

(** printer.marshalValue: pointers are followed, a type with MarshalXML encodes itself,
    the elements of a slice follow each other under the same name. *)
Definition encode (v : val) (subs : list node) (t : ty) (omit : bool) (name : string) : xout :=
  match v, subs with
  | VPtr None, _ => Ok []
  | VPtr (Some _), [n] => nenc n (elem_ty t) omit name
  | _, _ =>
      match marshaler t with
      | MNone =>
          match v with
          | VSlice _ => concat_all (fun n => enc_checked n (elem_ty t) omit name) subs
          | VStruct _ => enc_struct (fields_of t) subs name
          | _ => Ok [text_elem name (simple v)]
          end
      | m => marshal m (fields_of t) v subs name
      end
  end.
Fixpoint annotate (v : val) : node :=
  let subs := match v with
              | VPtr (Some x) => [annotate x]
              | VSlice (Some l) => map annotate l
              | VStruct l => map annotate l
              | _ => []
              end in
  Node v (encode v subs) subs.

(** encoder.Encode(bom), as a tree. *)
Definition bom_to_xml (b : BOM) : xout := nenc (annotate (reify_BOM b)) (TRef "BOM") false "BOM".

(** ** Decoding *)

(** strings.TrimSpace: the ASCII spaces and the other characters of unicode.IsSpace. *)
Definition space_bytes : list string :=
  map (fun l => fold_right (fun n s => String (ascii_of_N n) s) "" l)
    [ [0x09]; [0x0A]; [0x0B]; [0x0C]; [0x0D]; [0x20]; [0xC2; 0x85]; [0xC2; 0xA0]; [0xE1; 0x9A; 0x80];
      [0xE2; 0x80; 0x80]; [0xE2; 0x80; 0x81]; [0xE2; 0x80; 0x82]; [0xE2; 0x80; 0x83]; [0xE2; 0x80; 0x84];
      [0xE2; 0x80; 0x85]; [0xE2; 0x80; 0x86]; [0xE2; 0x80; 0x87]; [0xE2; 0x80; 0x88]; [0xE2; 0x80; 0x89];
      [0xE2; 0x80; 0x8A]; [0xE2; 0x80; 0xA8]; [0xE2; 0x80; 0xA9]; [0xE2; 0x80; 0xAF]; [0xE2; 0x81; 0x9F];
      [0xE3; 0x80; 0x80] ]%N.
Fixpoint string_rev (s acc : string) : string := match s with "" => acc | String a s' => string_rev s' (String a acc) end.
(** Removes from the front any number of the given prefixes; [n] bounds their number. *)
Fixpoint trim_front (n : nat) (spaces : list string) (s : string) : string :=
  match n with
  | O => s
  | S n' => match find (fun p => String.prefix p s) spaces with
            | Some p => trim_front n' spaces (String.substring (String.length p) (String.length s - String.length p) s)
            | None => s
            end
  end.
Definition trim_space (s : string) : string :=
  let s1 := trim_front (String.length s) space_bytes s in
  let r := string_rev s1 "" in
  string_rev (trim_front (String.length r) (map (fun p => string_rev p "") space_bytes) r) "".

(** strconv.ParseBool *)
Definition parse_bool (s : string) : option bool :=
  if existsb (String.eqb s) ["1"; "t"; "T"; "TRUE"; "true"; "True"] then Some true
  else if existsb (String.eqb s) ["0"; "f"; "F"; "FALSE"; "false"; "False"] then Some false
  else None.

(** strconv.ParseFloat. Not modelled: hexadecimal floats, and decimals without digits
    before or after the point. *)
Fixpoint lower_string (s : string) : string :=
  match s with
  | "" => ""
  | String a s' => String (if in_range "A" "Z" a then ascii_of_N (byte_of a + 32) else a) (lower_string s')
  end.
Definition read_xml_float (bits32 : bool) (s : string) : option gofloat :=
  let (sign, r) := match s with
                   | String "-" r => (Some true, r)
                   | String "+" r => (Some false, r)
                   | _ => (None, s)
                   end in
  let l := lower_string r in
  if (String.eqb l "inf" || String.eqb l "infinity")%bool
  then Some (FInf (match sign with Some true => true | _ => false end))
  else if String.eqb (lower_string s) "nan" then Some FNaN
  else match sign with
       | Some false => match r with String "-" _ => None | _ => parse_float bits32 r end
       | _ => parse_float bits32 s
       end.

(** encoding/xml copyValue, for a type that is not a pointer *)
Definition copy_value (t : ty) (s : string) : result xerr val :=
  match kind_of t with
  | KStr => Ok (VStr s)
  | KInt => if String.eqb s "" then Ok (VInt 0)
            else match atoi (trim_space s) with Ok z => Ok (VInt z) | Err _ => Err XValue end
  | KBool => if String.eqb s "" then Ok (VBool false)
             else match parse_bool (trim_space s) with Some b => Ok (VBool b) | None => Err XValue end
  | KFlt => if String.eqb s "" then Ok (VFlt fzero)
            else match read_xml_float (match t with TF32 => true | _ => false end) (trim_space s) with
                 | Some f => Ok (VFlt f)
                 | None => Err XValue
                 end
  | _ => Err XKind
  end.

(** A document whose elements wait for a type, a depth and the value to decode into:
    Decoder.unmarshal(val, start, depth). *)
Definition xdecoder := ty -> N -> val -> result xerr val.
Inductive kid :=
| KText (s : string)
| KElem (space local : string) (attrs : list (string * string)) (kids : list kid) (dec : xdecoder).

(** The content of a struct's field with the option chardata, or of a string. *)
Fixpoint chardata (ks : list kid) : string :=
  match ks with
  | [] => ""
  | KText s :: ks' => s ++ chardata ks'
  | _ :: ks' => chardata ks'
  end.

(** maxUnmarshalDepth, half of it. The decoder is defined for every (even) limit, so that
    one can say what the limit does; [bom_of_xml] has that of encoding/xml. *)
Class Limit := half : positive.
Definition limit {L : Limit} : N := Npos (xO half).
Definition go_limit : Limit := 5000%positive.
Definition max_unmarshal_depth : N := @limit go_limit.

(** Decoder.unmarshalPath. Among the fields of a struct, the one an element belongs to,
    or the parent path that it begins. Paths have at most one parent (XmlTable.v).
    [parent] is the parent we are in, if any. *)
Inductive place := Here (i : nat) | Inside (parent : string).
Definition place_of (parent : option string) (local : string) (i : nat) (f : field) : option place :=
  match xml_info f with
  | Some (mkX XElement parents name _) =>
      match parent, parents with
      | None, [] => if String.eqb name local then Some (Here i) else None
      | None, p :: _ => if String.eqb p local then Some (Inside p) else None
      | Some q, [p] => if (String.eqb p q && String.eqb name local)%bool then Some (Here i) else None
      | _, _ => None
      end
  | _ => None
  end.
Fixpoint find_place (parent : option string) (local : string) (i : nat) (fs : list field) : option place :=
  match fs with
  | [] => None
  | f :: fs' => match place_of parent local i f with Some p => Some p | None => find_place parent local (S i) fs' end
  end.

Definition dec_at (fs : list field) (i : nat) (dec : xdecoder) (depth : N) (cur : list val) : result xerr (list val) :=
  match nth_error fs i, nth_error cur i with
  | Some f, Some c => bind (dec (f_ty f) (N.succ depth) c) (fun v => Ok (set_nth i v cur))
  | _, _ => Err XKind
  end.
Fixpoint dec_inside (fs : list field) (parent : string) (depth : N) (ks : list kid) (cur : list val) : result xerr (list val) :=
  match ks with
  | [] => Ok cur
  | KElem _ local _ _ dec :: ks' =>
      bind (match find_place (Some parent) local 0 fs with
            | Some (Here i) => dec_at fs i dec depth cur
            | _ => Ok cur
            end) (dec_inside fs parent depth ks')
  | KText _ :: ks' => dec_inside fs parent depth ks' cur
  end.
Fixpoint dec_kids (fs : list field) (depth : N) (ks : list kid) (cur : list val) : result xerr (list val) :=
  match ks with
  | [] => Ok cur
  | KElem _ local _ inner dec :: ks' =>
      bind (match find_place None local 0 fs with
            | Some (Here i) => dec_at fs i dec depth cur
            | Some (Inside p) => dec_inside fs p depth inner cur
            | None => Ok cur
            end) (dec_kids fs depth ks')
  | KText _ :: ks' => dec_kids fs depth ks' cur
  end.

(** Decoder.unmarshalAttr *)
Definition dec_attr (t : ty) (s : string) : result xerr val :=
  match kind_of t with
  | KPtr t' => bind (copy_value t' s) (fun v => Ok (some_ptr v))
  | _ => copy_value t s
  end.
(** One attribute: every field of that name takes it. *)
Fixpoint set_attr (fs : list field) (name s : string) (cur : list val) : result xerr (list val) :=
  match fs, cur with
  | f :: fs', c :: cur' =>
      bind (match xml_info f with
            | Some (mkX XAttribute _ n _) => if String.eqb n name then dec_attr (f_ty f) s else Ok c
            | _ => Ok c
            end) (fun v => bind (set_attr fs' name s cur') (fun vs => Ok (v :: vs)))
  | _, _ => Ok cur
  end.
Fixpoint set_attrs (fs : list field) (attrs : list (string * string)) (cur : list val) : result xerr (list val) :=
  match attrs with
  | [] => Ok cur
  | (n, s) :: attrs' => bind (set_attr fs n s cur) (set_attrs fs attrs')
  end.
Fixpoint set_chardata (fs : list field) (s : string) (cur : list val) : list val :=
  match fs, cur with
  | f :: fs', c :: cur' =>
      (match xml_info f with Some (mkX XCharData _ _ _) => VStr s | _ => c end) :: set_chardata fs' s cur'
  | _, _ => cur
  end.
(** The field XMLName holds the name of the element, which must be the one in its tag. *)
Fixpoint set_name (fs : list field) (space local : string) (cur : list val) : list val :=
  match fs, cur with
  | f :: fs', c :: cur' =>
      (if String.eqb (f_name f) "XMLName" then VStruct [VStr space; VStr local] else c) :: set_name fs' space local cur'
  | _, _ => cur
  end.

(** Decoder.unmarshal into a struct. *)
Definition dec_struct (fs : list field) (space local : string) (attrs : list (string * string)) (ks : list kid)
    (depth : N) (cur : list val) : result xerr (list val) :=
  if match xml_name fs with Some n => negb (String.eqb n local) | None => false end then Err (XExpected local)
  else bind (set_attrs fs attrs (set_name fs space local cur)) (fun cur1 =>
       bind (dec_kids fs depth ks cur1) (fun cur2 => Ok (set_chardata fs (chardata ks) cur2))).

(** DecodeElement into a fresh variable of a struct type that has only a list of fields *)
Definition zeros (fs : list field) : list val := map (fun f => zero_of (f_ty f)) fs.
Definition decode_raw (fs : list field) (space local : string) (attrs : list (string * string)) (ks : list kid) : result xerr (list val) :=
  dec_struct fs space local attrs ks 0 (zeros fs).
Definition xfield (name : string) (t : ty) (tag : string) : field := mkField name t ("xml:""" ++ tag ++ """") false.
(** DecodeElement into a fresh variable *)
Definition decode_fresh (dec : xdecoder) (t : ty) : result xerr val := dec t 0%N (zero_of t).

(** A loop over the tokens of an element up to EOF that decodes the child elements it knows. *)
Fixpoint each_kid {S} (f : kid -> S -> result xerr S) (ks : list kid) (s : S) : result xerr S :=
  match ks with
  | [] => Ok s
  | KText _ :: ks' => each_kid f ks' s
  | k :: ks' => bind (f k s) (each_kid f ks')
  end.

(** A loop over the tokens that goes down into elements it does not decode or skip:
    [enter] is called at a start element and [leave] at an end element. *)
Inductive entered (S : Type) := Decoded (s : S) | Entered (s : S).
Arguments Decoded {S}. Arguments Entered {S}.
Fixpoint walk {S} (enter : kid -> S -> result xerr (entered S)) (leave : string -> S -> result xerr S) (k : kid) (s : S) : result xerr S :=
  match k with
  | KText _ => Ok s
  | KElem _ local _ ks _ =>
      bind (enter k s) (fun r =>
        match r with
        | Decoded s1 => Ok s1
        | Entered s1 =>
            bind ((fix go (ks : list kid) (s : S) : result xerr S :=
                     match ks with [] => Ok s | k' :: ks' => bind (walk enter leave k' s) (go ks') end) ks s1)
                 (leave local)
        end)
  end.
Fixpoint walk_all {S} (enter : kid -> S -> result xerr (entered S)) (leave : string -> S -> result xerr S) (ks : list kid) (s : S) : result xerr S :=
  match ks with [] => Ok s | k :: ks' => bind (walk enter leave k s) (walk_all enter leave ks') end.

Definition ptr_if (l : list val) : val := match l with [] => VPtr None | _ => some_ptr (VSlice (Some l)) end.
Definition str_if (s : string) : val := if String.eqb s "" then VPtr None else some_ptr (VStr s).

(** /repo/cyclonedx_xml.go:161-181 *)
Definition dec_environment (k : kid) (l : list val) : result xerr (list val) :=
  match k with
  | KElem _ local _ _ dec =>
      if String.eqb local "value" then bind (decode_fresh dec TStr) (fun v => Ok (l ++ [VStruct [VPtr None; v]])%list)
      else if String.eqb local "environmentVar"
      then bind (decode_fresh dec (TRef "Property")) (fun v => Ok (l ++ [VStruct [some_ptr v; VStr ""]])%list)
      else Err (XUnknown local)
  | KText _ => Ok l
  end.

(** /repo/cyclonedx_xml.go:289-340 *)
Definition detail_back (d : val) : val :=
  match d with VStruct [id; text; url] => VStruct [id; VStr ""; text; url] | _ => d end.
Definition dec_choice (k : kid) (l : list val) : result xerr (list val) :=
  match k with
  | KElem space local attrs ks dec =>
      if String.eqb local "expression" then
        bind (decode_raw fields_licenseExpressionXML space local attrs ks) (fun r =>
          match r with
          | [expr; ack; ref] => Ok (l ++ [VStruct [VPtr None; expr; VPtr None; str_if (str_of ack); ref; VPtr None; VPtr None]])%list
          | _ => Err XKind
          end)
      else if String.eqb local "expression-detailed" then
        bind (decode_raw fields_licenseExpressionDetailedXML space local attrs ks) (fun r =>
          match r with
          | [expr; ack; ref; details] =>
              Ok (l ++ [VStruct [VPtr None; expr; ptr_if (map detail_back (list_of_slice details)); str_if (str_of ack); ref; VPtr None; VPtr None]])%list
          | _ => Err XKind
          end)
      else if String.eqb local "license" then
        bind (decode_fresh dec (TRef "License")) (fun v =>
          Ok (l ++ [VStruct [some_ptr v; VStr ""; VPtr None; VPtr None; VStr ""; VPtr None; VPtr None]])%list)
      else Err (XUnknown local)
  | KText _ => Ok l
  end.

(** /repo/cyclonedx_xml.go:782-810; the state: legacyTools, components, services *)
Definition slice_or (p old : val) : val := match p with VPtr (Some l) => l | _ => old end.
Definition dec_tools (k : kid) (s : list val * val * val) : result xerr (list val * val * val) :=
  match k, s with
  | KElem space local attrs ks dec, (tools, comps, servs) =>
      if String.eqb local "tool" then bind (decode_fresh dec (TRef "Tool")) (fun v => Ok ((tools ++ [v])%list, comps, servs))
      else if String.eqb local "components" then
        bind (decode_raw fields_toolsChoiceUnmarshalXML space local attrs ks) (fun r =>
          match r with [c; _] => Ok (tools, slice_or c comps, servs) | _ => Err XKind end)
      else if String.eqb local "services" then
        bind (decode_raw fields_toolsChoiceUnmarshalXML space local attrs ks) (fun r =>
          match r with [_; v] => Ok (tools, comps, slice_or v servs) | _ => Err XKind end)
      else Err (XUnknown local)
  | KText _, _ => Ok s
  end.

(** /repo/cyclonedx_xml.go:899-943; the state: identities, occurrences, callstack,
    licenses, copyright *)
Definition dec_evidence (k : kid) (s : list val * list val) : result xerr (list val * list val) :=
  match k, s with
  | KElem space local attrs ks dec, (ids, [occ; cs; lics; copy]) =>
      if String.eqb local "identity" then
        bind (decode_fresh dec (TRef "EvidenceIdentity")) (fun v => Ok ((ids ++ [v])%list, [occ; cs; lics; copy]))
      else if String.eqb local "occurrences" then
        bind (decode_raw fields_EvidenceUnmarshalXML space local attrs ks) (fun r =>
          match r with [o; _] => Ok (ids, [if nonnil o then o else occ; cs; lics; copy]) | _ => Err XKind end)
      else if String.eqb local "callstack" then
        bind (decode_fresh dec (TRef "Callstack")) (fun v =>
          Ok (ids, [occ; if existsb nonnil (fields_of_val v) then some_ptr v else cs; lics; copy]))
      else if String.eqb local "licenses" then
        bind (decode_fresh dec (TRef "Licenses")) (fun v =>
          Ok (ids, [occ; cs; match list_of_slice v with [] => lics | _ => some_ptr v end; copy]))
      else if String.eqb local "copyright" then
        bind (decode_raw fields_EvidenceUnmarshalXML space local attrs ks) (fun r =>
          match r with [_; c] => Ok (ids, [occ; cs; lics; if nonnil c then c else copy]) | _ => Err XKind end)
      else Err (XUnknown local)
  | _, _ => Ok s
  end.

(** /repo/cyclonedx_xml.go:1047-1127. The fields of the receiver, and the list of URLs
    while inside <source> or <destination>. *)
Inductive data_state :=
| DOuter (vs : list val)
| DUrls (at_source : bool) (urls : list val) (vs : list val)
| DDone (vs : list val).
Fixpoint last_attr (name : string) (attrs : list (string * string)) (old : val) : val :=
  match attrs with
  | [] => old
  | (n, s) :: attrs' => last_attr name attrs' (if String.eqb n name then VStr s else old)
  end.
Definition data_enter (k : kid) (s : data_state) : result xerr (entered data_state) :=
  match k, s with
  | KElem _ local attrs _ dec, DOuter [flow; classification; name; description; governance; source; destination] =>
      if String.eqb local "classification" then
        bind (decode_fresh dec TStr) (fun v =>
          Ok (Decoded (DOuter [last_attr "flow" attrs flow; v; name; description; governance; source; destination])))
      else if String.eqb local "governance" then
        bind (decode_fresh dec (TRef "DataGovernance")) (fun v =>
          Ok (Decoded (DOuter [flow; classification; name; description; some_ptr v; source; destination])))
      else if String.eqb local "source" then Ok (Entered (DUrls true [] [flow; classification; name; description; governance; source; destination]))
      else if String.eqb local "destination" then Ok (Entered (DUrls false [] [flow; classification; name; description; governance; source; destination]))
      else Ok (Entered s)
  | KElem _ local _ _ dec, DUrls at_source urls vs =>
      if String.eqb local "url" then bind (decode_fresh dec TStr) (fun v => Ok (Decoded (DUrls at_source (urls ++ [v])%list vs)))
      else Ok (Entered s)
  | _, DDone _ => Err XNotConsumed
  | _, _ => Err XKind
  end.
Definition data_leave (local : string) (s : data_state) : result xerr data_state :=
  match s with
  | DOuter vs => Ok (if String.eqb local "dataflow" then DDone vs else s)
  | DUrls true urls vs =>
      Ok (if String.eqb local "source" then DOuter (match urls with [] => vs | _ => set_nth 5 (ptr_if urls) vs end) else s)
  | DUrls false urls vs =>
      Ok (if String.eqb local "destination" then DOuter (match urls with [] => vs | _ => set_nth 6 (ptr_if urls) vs end) else s)
  | DDone _ => Err XNotConsumed
  end.

(** /repo/cyclonedx_xml.go:1175-1256 *)
Inductive defs_state :=
| FOuter (standards patents : val)
| FStandards (l : list val) (standards patents : val)
| FPatents (l : list val) (standards patents : val)
| FDone (standards patents : val).
Definition defs_enter (k : kid) (s : defs_state) : result xerr (entered defs_state) :=
  match k, s with
  | KElem _ local _ _ dec, FOuter a b =>
      if String.eqb local "standards" then Ok (Entered (FStandards [] a b))
      else if String.eqb local "patents" then Ok (Entered (FPatents [] a b))
      else Ok (Decoded s)
  | KElem _ local _ _ dec, FStandards l a b =>
      if String.eqb local "standard"
      then bind (decode_fresh dec (TRef "StandardDefinition")) (fun v => Ok (Decoded (FStandards (l ++ [v])%list a b)))
      else Ok (Entered s)
  | KElem _ local _ _ dec, FPatents l a b =>
      if String.eqb local "patent"
      then bind (decode_fresh dec (TRef "Patent")) (fun v => Ok (Decoded (FPatents (l ++ [VStruct [some_ptr v; VPtr None]])%list a b)))
      else if String.eqb local "patentFamily"
      then bind (decode_fresh dec (TRef "PatentFamily")) (fun v => Ok (Decoded (FPatents (l ++ [VStruct [VPtr None; some_ptr v]])%list a b)))
      else Ok (Entered s)
  | _, FDone _ _ => Err XNotConsumed
  | KText _, _ => Err XKind
  end.
Definition defs_leave (local : string) (s : defs_state) : result xerr defs_state :=
  match s with
  | FOuter a b => Ok (FDone a b)
  | FStandards l a b => Ok (FOuter (match l with [] => a | _ => ptr_if l end) b)
  | FPatents l a b => Ok (FOuter a (match l with [] => b | _ => ptr_if l end))
  | FDone _ _ => Err XNotConsumed
  end.

(** The UnmarshalXML methods; [cur] is the receiver. *)
Definition unmarshal (m : method) (t : ty) (space local : string) (attrs : list (string * string)) (ks : list kid) (cur : val) : result xerr val :=
  match m, cur with
  (* /repo/cyclonedx_xml.go:38-45 *)
  | MRef, _ =>
      bind (decode_raw fields_bomReferenceXML space local attrs ks) (fun r => match r with [ref] => Ok ref | _ => Err XKind end)
  (* /repo/cyclonedx_xml.go:51-58 *)
  | MCopyright, _ => Ok (VStruct [VStr (chardata ks)])
  (* /repo/cyclonedx_xml.go:90-116 *)
  | MDependency, _ =>
      bind (decode_raw fields_dependencyXML space local attrs ks) (fun r =>
        let refs p := map (fun d => hd (VStr "") (fields_of_val d)) (match p with VPtr (Some l) => list_of_slice l | _ => [] end) in
        match r with
        | [ref; deps; provides] => Ok (VStruct [ref; ptr_if (refs deps); ptr_if (refs provides)])
        | _ => Err XKind
        end)
  (* /repo/cyclonedx_xml.go:149-186 *)
  | MEnvironment, _ => bind (each_kid dec_environment ks []) (fun l => Ok (VSlice (Some l)))
  (* /repo/cyclonedx_xml.go:277-345 *)
  | MLicenses, _ => bind (each_kid dec_choice ks []) (fun l => Ok (VSlice (Some l)))
  (* /repo/cyclonedx_xml.go:366-383 *)
  | MDataset, VStruct [ref; data] =>
      bind (decode_raw (xfield "Ref" TStr "ref" :: fields_ComponentData) space local attrs ks) (fun r =>
        match r with
        | x :: d =>
            if nonempty x then Ok (VStruct [x; data])
            else Ok (VStruct [ref; if forallb zero_value d then data else some_ptr (VStruct d)])
        | [] => Err XKind
        end)
  (* /repo/cyclonedx_xml.go:389-418 *)
  | MSpecVersion, _ =>
      match parse_spec_version (chardata ks) with Some z => Ok (VInt z) | None => Err XInvalidSpecVersion end
  (* /repo/cyclonedx_xml.go:451-474 *)
  | MState, VStruct [predefined; custom] =>
      bind (decode_raw [xfield "State" TStr "state"; xfield "Name" TStr "name"; xfield "Description" TStr "description"; xfield "Reason" TStr "reason"]
              space local attrs ks) (fun r =>
        match r with
        | [state; name; description; reason] =>
            if nonempty state then Ok (VStruct [some_ptr (VStruct [state; reason]); custom])
            else Ok (VStruct [predefined; some_ptr (VStruct [name; description; reason])])
        | _ => Err XKind
        end)
  (* /repo/cyclonedx_xml.go:505-527 *)
  | MExtension, VStruct [common; custom] =>
      bind (decode_raw [xfield "CommonExtensionName" TStr "commonExtensionName"; xfield "CommonExtensionValue" TStr "commonExtensionValue";
                        xfield "CustomExtensionName" TStr "customExtensionName"; xfield "CustomExtensionValue" TStr "customExtensionValue"]
              space local attrs ks) (fun r =>
        match r with
        | [name; value; cname; cvalue] =>
            if nonempty name then Ok (VStruct [some_ptr (VStruct [name; value]); custom])
            else Ok (VStruct [common; some_ptr (VStruct [cname; cvalue])])
        | _ => Err XKind
        end)
  (* /repo/cyclonedx_xml.go:551-564 *)
  | MAsserter, _ =>
      bind (decode_raw [xfield "Organization" (TPtr (TRef "OrganizationalEntity")) "organization";
                        xfield "Individual" (TPtr (TRef "OrganizationalContact")) "contact";
                        xfield "BOMRef" (TPtr (TRef "BOMReference")) "ref"] space local attrs ks) (fun r => Ok (VStruct r))
  (* /repo/cyclonedx_xml.go:580-596, 612-630, 646-662, 678-694, 710-726: the fields of the
     struct after BOMRef have the same names and types as those of the local struct *)
  | MIKEv2, VStruct (ref :: rest) =>
      bind (decode_raw (xfield "Content" TStr ",chardata" :: tl (fields_of t)) space local attrs ks) (fun r =>
        match r with
        | content :: vs =>
            let c := trim_space (str_of content) in
            if (negb (String.eqb c "") && forallb zero_value vs)%bool then Ok (VStruct (VStr c :: rest))
            else Ok (VStruct (ref :: vs))
        | [] => Err XKind
        end)
  (* /repo/cyclonedx_xml.go:768-832 *)
  | MTools, _ =>
      bind (each_kid dec_tools ks ([], VSlice None, VSlice None)) (fun s =>
        match s with
        | (tools, comps, servs) =>
            let some v := match list_of_slice v with [] => false | _ => true end in
            let ptr v := if some v then some_ptr v else VPtr None in
            if (some (VSlice (Some tools)) && (some comps || some servs))%bool then Err XBoth
            else if (some (VSlice (Some tools)) || some comps || some servs)%bool then Ok (VStruct [ptr_if tools; ptr comps; ptr servs])
            else Ok cur
        end)
  (* /repo/cyclonedx_xml.go:886-952 *)
  | MEvidence, _ =>
      bind (each_kid dec_evidence ks ([], [VPtr None; VPtr None; VPtr None; VPtr None])) (fun s =>
        match s with
        | (ids, rest) =>
            Ok (VStruct (match ids with [] => VPtr None | _ => some_ptr (VStruct [VPtr None; ptr_if ids]) end :: rest))
        end)
  (* /repo/cyclonedx_xml.go:1035-1128 *)
  | MData, VStruct [flow; classification; name; description; governance; source; destination] =>
      bind (walk_all data_enter data_leave ks
              (DOuter [flow; classification; last_attr "name" attrs name; last_attr "description" attrs description; governance; source; destination])) (fun s =>
      bind (data_leave local s) (fun s' =>
        match s' with DDone vs => Ok (VStruct vs) | _ => Err XEOF end))
  (* /repo/cyclonedx_xml.go:1174-1258 *)
  | MDefinitions, VStruct [standards; patents] =>
      bind (walk_all defs_enter defs_leave ks (FOuter standards patents)) (fun s =>
      bind (defs_leave local s) (fun s' =>
        match s' with
        | FOuter a b | FStandards _ a b | FPatents _ a b | FDone a b => Ok (VStruct [a; b])
        end))
  | _, _ => Err XKind
  end.

(** Decoder.unmarshal past the slice case: a type with UnmarshalXML decodes itself, then
    by kind. *)
Definition dec_value (space local : string) (attrs : list (string * string)) (ks : list kid) (t : ty) (depth : N) (cur : val) : result xerr val :=
  match unmarshaler t with
  | MNone =>
      match kind_of t with
      | KStruct fs => bind (dec_struct fs space local attrs ks depth (fields_of_val cur)) (fun vs => Ok (VStruct vs))
      | _ => copy_value t (chardata ks)
      end
  | m => unmarshal m t space local attrs ks cur
  end.
(** Decoder.unmarshal for a type that is not a pointer: a slice grows by one element.
    (Elements are neither pointers nor slices.) *)
Definition dec_slice {L : Limit} (space local : string) (attrs : list (string * string)) (ks : list kid) (t : ty) (depth : N) (cur : val) : result xerr val :=
  match unmarshaler t, kind_of t with
  | MNone, KSlice t' =>
      if (limit <=? N.succ depth)%N then Err XDepth
      else bind (dec_value space local attrs ks t' (N.succ depth) (zero_of t')) (fun v =>
             Ok (VSlice (Some (list_of_slice cur ++ [v])%list)))
  | _, _ => dec_value space local attrs ks t depth cur
  end.
Definition dec_elem {L : Limit} (space local : string) (attrs : list (string * string)) (ks : list kid) : xdecoder :=
  fun t depth cur =>
    if (limit <=? depth)%N then Err XDepth
    else match kind_of t with
         | KPtr t' =>
             bind (dec_slice space local attrs ks t' depth (match cur with VPtr (Some x) => x | _ => zero_of t' end))
                  (fun v => Ok (some_ptr v))
         | _ => dec_slice space local attrs ks t depth cur
         end.

Fixpoint waiting {L : Limit} (x : xml) : kid :=
  match x with
  | XText s => KText s
  | XElem space local attrs kids =>
      let ks := map waiting kids in
      KElem space local attrs ks (dec_elem space local attrs ks)
  end.
Definition xdec {L : Limit} (x : xml) : xdecoder :=
  match waiting x with KElem _ _ _ _ dec => dec | KText _ => fun _ _ _ => Err XEOF end.

(** /repo/decode.go:57-72, from the root element: xml.Decoder.Decode, then the
    specification version of the name space. [entries] is the map xmlNamespaces in the
    order of the iteration. What a failed call leaves in [bom] is not modelled. *)
Definition bom_within {L : Limit} (entries : list (SpecVersion * string)) (x : xml) (b : BOM) : result xerr BOM :=
  bind (xdec x (TRef "BOM") 0%N (reify_BOM b)) (fun v =>
    let b' := reflect_BOM v in
    Ok (set_BOM_SpecVersion (match_namespace entries (BOM_XMLNS b') (BOM_SpecVersion b')) b')).
Definition bom_of_xml : list (SpecVersion * string) -> xml -> BOM -> result xerr BOM := @bom_within go_limit.

(** ** From the encoder to the decoder *)

(** What the decoder sees of a written tree: an element belongs to the name space that
    the nearest attribute xmlns gives, the last one if there are several (no name has a
    prefix). encoding/xml Decoder.Token and translate. *)
Fixpoint declared (attrs : list (string * string)) (ns : string) : string :=
  match attrs with
  | [] => ns
  | (n, s) :: attrs' => declared attrs' (if String.eqb n "xmlns" then s else ns)
  end.
Fixpoint resolve (ns : string) (x : xml) : xml :=
  match x with
  | XText s => XText s
  | XElem _ local attrs kids =>
      let ns' := declared attrs ns in
      XElem ns' local attrs (map (resolve ns') kids)
  end.

(** Encoder.Indent: a line break and spaces before every start element, and before every
    end element that does not follow its start element or a text directly
    (printer.writeIndent). *)
Definition is_elem (x : xml) : bool := match x with XElem _ _ _ _ => true | XText _ => false end.
Fixpoint blanks (n : nat) : string := match n with O => "" | S n' => "  " ++ blanks n' end.
Definition newline (depth : nat) : xml := XText (String "010" (blanks depth)).
Fixpoint indent (depth : nat) (x : xml) : xml :=
  match x with
  | XText s => XText s
  | XElem space local attrs kids =>
      if existsb is_elem kids
      then XElem space local attrs
             (flat_map (fun k => match k with XText _ => [k] | _ => [newline (S depth); indent (S depth) k] end) kids ++ [newline depth])%list
      else XElem space local attrs kids
  end.
