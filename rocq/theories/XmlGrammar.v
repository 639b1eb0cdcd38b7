(** What a text of XML stands for, as a relation between texts and trees, and when two
    trees say the same: the specification for C41. It does not mention the parser or the
    decoder. *)
From Verif Require Import Base Utf8 JsonModel JsonText XmlModel XmlText JsonGrammar.
From Coq Require Import Permutation.
Local Open Scope string_scope.

(** ** Trees that say the same *)

(** The text that stands directly in an element, and its child elements *)
Fixpoint own_text (ks : list xml) : string :=
  match ks with [] => "" | XText s :: ks' => s ++ own_text ks' | _ :: ks' => own_text ks' end.
Fixpoint own_elements (ks : list xml) : list xml :=
  match ks with [] => [] | XText _ :: ks' => own_elements ks' | e :: ks' => e :: own_elements ks' end.
(** The order of attributes does not matter if no name occurs twice. *)
Definition same_attrs (a a' : list (string * string)) : Prop := a = a' \/ (NoDup (map fst a) /\ Permutation a a').
(** The names of the elements that have text in CycloneDX documents, at least in some
    places. (The names in capitals are those of fields that no element belongs to.) *)
Definition text_elements : list string :=
  ["Dependencies"; "Local"; "Provides"; "Ref"; "Space"; "abstract"; "accessMode"; "activationDate"; "activity"; "aggregate"; "algorithm";
   "algorithmFamily"; "alias"; "altId"; "applicationNumber"; "architectureFamily"; "assertionType"; "assetType"; "attachment"; "auth";
   "authenticated"; "author"; "benefits"; "certificateExtension"; "certificateFileExtension"; "certificateFormat"; "certificationLevel";
   "classicalSecurityLevel"; "classification"; "column"; "comment"; "commonExtensionName"; "commonExtensionValue"; "concludedValue"; "confidence";
   "copyright"; "country"; "cpe"; "created"; "creationDate"; "cryptoFunction"; "curve"; "customExtensionName"; "customExtensionValue"; "cwe"; "data";
   "dataType"; "deactivationDate"; "description"; "destructionDate"; "detail"; "ellipticCurve"; "email"; "encr"; "endpoint"; "energySource";
   "environment"; "environmentVar"; "esn"; "executed"; "executionEnvironment"; "expiration"; "expirationDate"; "expires"; "expression";
   "expression-detailed"; "familyId"; "featuredImage"; "field"; "filingDate"; "fingerprint"; "firstIssued"; "format"; "fullFilename"; "function";
   "grantDate"; "group"; "groupAtRisk"; "harms"; "hash"; "id"; "identifier"; "identifiers"; "image"; "implementationPlatform"; "integ"; "isExternal";
   "issuerName"; "jurisdiction"; "justification"; "ke"; "keyLength"; "lastRenewal"; "lastUpdated"; "licenseType"; "line"; "locale"; "locality";
   "location"; "lowerBound"; "managedDataType"; "mechanism"; "message"; "method"; "mitigationStrategy"; "mode"; "modelArchitecture"; "modified";
   "module"; "mountPath"; "name"; "nistQuantumSecurityLevel"; "notValidAfter"; "notValidBefore"; "note"; "notes"; "oid"; "omniborId"; "openCre";
   "owner"; "package"; "padding"; "parameter"; "parameterSetIdentifier"; "parent"; "patentExpirationDate"; "patentLegalStatus"; "patentNumber";
   "path"; "performanceTradeoff"; "persistent"; "phase"; "phone"; "pointer"; "postOfficeBoxNumber"; "postalCode"; "predicate"; "prf"; "primitive";
   "process"; "properties"; "property"; "propertyName"; "publicationNumber"; "published"; "publisher"; "purchaseOrder"; "purl"; "range"; "rationale";
   "reason"; "reasoning"; "recommendation"; "ref"; "region"; "rejected"; "remote"; "reproductionSteps"; "requirement"; "response"; "revocationDate";
   "role"; "scope"; "score"; "sensitiveData"; "serialNumber"; "severity"; "signatureScheme"; "size"; "sizeAllocated"; "slice"; "socialImage";
   "state"; "statement"; "status"; "streetAddress"; "subjectName"; "summary"; "swhid"; "tag"; "task"; "taskType"; "technicalLimitation"; "technique";
   "text"; "thirdParty"; "timeActivated"; "timeEnd"; "timeReceived"; "timeStart"; "timestamp"; "title"; "tlp"; "trustZone"; "type"; "uid"; "unit";
   "updateDate"; "updated"; "upperBound"; "url"; "useCase"; "user"; "value"; "vector"; "vendor"; "version"; "versionRange"; "volumeRequest";
   "workaround"; "x-trust-boundary"].
(** Elements with the same name, attributes and text, and children that are alike one by
    one; wherever the text stands, and whatever name spaces the elements belong to. In
    elements that only have child elements, text does not matter, so that they can be
    indented. *)
Inductive alike : xml -> xml -> Prop :=
| al sp sp' l a a' ks ks' : same_attrs a a' -> (In l text_elements -> own_text ks = own_text ks') -> Forall2 alike (own_elements ks) (own_elements ks') ->
    alike (XElem sp l a ks) (XElem sp' l a' ks').
Definition space_of (x : xml) : string := match x with XElem sp _ _ _ => sp | XText _ => "" end.
(** Two documents: the root elements must belong to the same name space. *)
Definition same_document (x y : xml) : Prop := alike x y /\ space_of x = space_of y.

(** ** Texts and trees

    The part of XML 1.0 that encoding/xml reads, with names in ASCII: character data with
    references, CDATA sections, comments, processing instructions, simple directives,
    attributes in both kinds of quotation marks, white space within tags, elements without
    content in both forms, prefixes. *)
Definition occurs (p s : string) : Prop := exists a b, s = a ++ p ++ b.
Definition lf : ascii := "010".
Definition cr : ascii := "013".
(** [numeral base m d n]: the digits [d] after a numeral of the value [m] make [n]. *)
Inductive numeral (base : N) : N -> string -> N -> Prop :=
| nu_end n : numeral base n "" n
| nu_more n a d s m : hexadecimal a d -> (d < base)%N -> numeral base (n * base + d) s m -> numeral base n (String a s) m.
Definition named_references : list (string * string) := [("lt", "<"); ("gt", ">"); ("amp", "&"); ("apos", "'"); ("quot", String quote_mark "")].
(** [reference e c]: &e; stands for [c]. *)
Inductive reference : string -> string -> Prop :=
| re_name e c : In (e, c) named_references -> reference e c
| re_decimal d n : d <> "" -> numeral 10 0 d n -> (n <= 0x10FFFF)%N -> ~ high_half n -> ~ low_half n -> reference ("#" ++ d) (rune_text n)
| re_hex d n : d <> "" -> numeral 16 0 d n -> (n <= 0x10FFFF)%N -> ~ high_half n -> ~ low_half n -> reference ("#x" ++ d) (rune_text n).
(** [spelled q t s]: the text [t] stands for [s], between the quotation marks [q] or outside
    of tags. Line ends become line feeds. *)
Inductive spelled (q : option ascii) : string -> string -> Prop :=
| sp_end : spelled q "" ""
| sp_byte a t s : a <> "<"%char -> a <> "&"%char -> a <> cr -> q <> Some a -> spelled q t s -> spelled q (String a t) (String a s)
| sp_reference e c t s : reference e c -> spelled q t s -> spelled q ("&" ++ e ++ ";" ++ t) (c ++ s)
| sp_crlf t s : spelled q t s -> spelled q (String cr (String lf t)) (String lf s)
| sp_cr t s : (forall u, t <> String lf u) -> spelled q t s -> spelled q (String cr t) (String lf s).
(** Within a CDATA section only line ends change. *)
Inductive lines : string -> string -> Prop :=
| li_end : lines "" ""
| li_byte a t s : a <> cr -> lines t s -> lines (String a t) (String a s)
| li_crlf t s : lines t s -> lines (String cr (String lf t)) (String lf s)
| li_cr t s : (forall u, t <> String lf u) -> lines t s -> lines (String cr t) (String lf s).
(** [allowed s]: UTF-8, and only characters that XML allows *)
Definition allowed (s : string) : Prop := xml_clean s = s.

Definition letter (a : ascii) : bool := in_range "A" "Z" a || in_range "a" "z" a || Ascii.eqb a "_".
Definition letter_or_digit (a : ascii) : bool := letter a || in_range "0" "9" a || Ascii.eqb a "." || Ascii.eqb a "-".
Definition simple_name (n : string) : Prop := exists a s, n = String a s /\ letter a = true /\ str_all letter_or_digit s = true.
(** A name as it is written, its prefix and its local part *)
Inductive written_name : string -> pname -> Prop :=
| wn_local l : simple_name l -> written_name l ("", l)
| wn_prefix p l : simple_name p -> simple_name l -> written_name (p ++ ":" ++ l) (p, l).
Inductive attribute : string -> pname * string -> Prop :=
| at_one n p v w q t s : written_name n p -> white v -> white w -> q = "'"%char \/ q = quote_mark -> spelled (Some q) t s -> allowed s ->
    attribute (n ++ v ++ "=" ++ w ++ String q (t ++ String q "")) (p, s).
Inductive attributes : string -> list (pname * string) -> Prop :=
| as_end : attributes "" []
| as_more w a p t l : white w -> w <> "" -> attribute a p -> attributes t l -> attributes (w ++ a ++ t) (p :: l).

(** What is skipped. The XML declaration stands for itself; only version 1.0 and UTF-8 can
    be read. *)
Definition starts (p : ascii -> Prop) (s : string) : Prop := match s with "" => False | String a _ => p a end.
Definition quoted (q : ascii) (s : string) : string := String q (s ++ String q "").
Definition declarations : list string :=
  flat_map (fun q => [" version=" ++ quoted q "1.0"; " version=" ++ quoted q "1.0" ++ " encoding=" ++ quoted q "UTF-8"; " version=" ++ quoted q "1.0" ++ " encoding=" ++ quoted q "utf-8";
                      " version=" ++ quoted q "1.0" ++ " encoding=" ++ quoted q "UTF-8" ++ " standalone=" ++ quoted q "yes"]) ["'"%char; quote_mark].
Inductive skipped : string -> Prop :=
| sk_comment t : ~ occurs "--" (t ++ "-") -> skipped ("<!--" ++ t ++ "-->")
| sk_instruction n t : simple_name n -> n <> "xml" -> t = "" \/ starts (fun a => white (String a "")) t -> ~ occurs "?>" t -> skipped ("<?" ++ n ++ t ++ "?>")
| sk_declaration t : In t declarations -> skipped ("<?xml" ++ t ++ "?>")
| sk_directive t : starts (fun a => letter a = true) t -> str_all (fun a => negb (existsb (Ascii.eqb a) ["<"; ">"; "'"; quote_mark]%char)) t = true -> skipped ("<!" ++ t ++ ">").

(** The name spaces that prefixes stand for; the prefix "" is the default. *)
Definition scope := string -> string.
Definition no_scope : scope := fun p => p.
Definition declares (ns : scope) (a : pname * string) : scope :=
  fun p => if (String.eqb (fst (fst a)) "xmlns" && String.eqb (snd (fst a)) p)%bool then snd a
           else if (String.eqb (fst (fst a)) "" && String.eqb (snd (fst a)) "xmlns" && String.eqb p "")%bool then snd a
           else ns p.
Definition within (ns : scope) (l : list (pname * string)) : scope := fold_left declares l ns.
Definition local_only (l : list (pname * string)) : list (string * string) := map (fun a => (snd (fst a), snd a)) l.
(** Names of elements have no reserved prefix. *)
Definition element_name (n : string) (p : pname) : Prop := written_name n p /\ ~ In (fst p) ["xmlns"; "xml"] /\ p <> ("", "xmlns").
Definition markup (s : string) : Prop := s = "" \/ exists r, s = String "<" r.

Inductive xelement : scope -> string -> xml -> Prop :=
| xe_empty ns n p t l w : element_name n p -> attributes t l -> white w ->
    xelement ns ("<" ++ n ++ t ++ w ++ "/>") (XElem (within ns l (fst p)) (snd p) (local_only l) [])
| xe_full ns n p t l w s ks v : element_name n p -> attributes t l -> white w -> xcontent (within ns l) s ks -> white v ->
    xelement ns ("<" ++ n ++ t ++ w ++ ">" ++ s ++ "</" ++ n ++ v ++ ">") (XElem (within ns l (fst p)) (snd p) (local_only l) ks)
with xcontent : scope -> string -> list xml -> Prop :=
| xc_end ns : xcontent ns "" []
| xc_text ns t s r ks : t <> "" -> spelled None t s -> ~ occurs "]]>" t -> allowed s -> markup r -> xcontent ns r ks -> xcontent ns (t ++ r) (XText s :: ks)
| xc_cdata ns t s r ks : lines t s -> ~ occurs "]]>" t -> allowed s -> xcontent ns r ks -> xcontent ns ("<![CDATA[" ++ t ++ "]]>" ++ r) (XText s :: ks)
| xc_skip ns m r ks : skipped m -> xcontent ns r ks -> xcontent ns (m ++ r) ks
| xc_element ns e x r ks : xelement ns e x -> xcontent ns r ks -> xcontent ns (e ++ r) (x :: ks).
(** Before the root element: what is skipped, and white space. *)
Inductive prolog : string -> Prop :=
| pr_end : prolog ""
| pr_white w r : white w -> w <> "" -> markup r -> prolog r -> prolog (w ++ r)
| pr_skip m r : skipped m -> prolog r -> prolog (m ++ r).
(** [xdocument s x]: the text [s] has the root element [x]; anything may follow. *)
Inductive xdocument : string -> xml -> Prop :=
| xd p e x r : prolog p -> xelement no_scope e x -> xdocument (p ++ e ++ r) x.
