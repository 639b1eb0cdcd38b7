(** When nothing is lost by writing a value as XML and reading it again. *)
From Verif Require Import Base Types Univ TypeTable Wt Reify Consts Version JsonModel XmlModel.
Local Open Scope string_scope.

(** The element name under which a field is written; a DataClassification is always
    written as <dataflow>. *)
Fixpoint written_type (t : ty) : ty := match t with TPtr t' | TSlice t' => written_type t' | _ => t end.
Definition own_name (f : field) (name : string) : Prop := written_type (f_ty f) = TRef "DataClassification" -> name = "dataflow".

(** A value with what it takes to survive: [keeps t omit] says that the value, of type
    [t] and under the option omitempty, is written and read back unchanged. *)
Inductive knode := KNode (v : val) (keeps : ty -> bool -> Prop) (subs : list knode).
Definition kval (n : knode) : val := match n with KNode v _ _ => v end.
Definition keeps (n : knode) : ty -> bool -> Prop := match n with KNode _ k _ => k end.
Definition ksubs (n : knode) : list knode := match n with KNode _ _ s => s end.

(** Only the characters that XML has: no control characters, no invalid UTF-8. *)
Definition good_text (v : val) : Prop := exists s, v = VStr s /\ xml_clean s = s.
Definition good_nonempty (v : val) : Prop := exists s, v = VStr s /\ xml_clean s = s /\ s <> "".
Definition absent (n : knode) : Prop := kval n = VPtr None.
Definition blank_string (n : knode) : Prop := kval n = VStr "".
Definition here (n : knode) (t : ty) : Prop := keeps n (TPtr t) false.
Definition maybe (n : knode) (t : ty) : Prop := absent n \/ here n t.
(** The fields of the struct, or the elements of the list, behind a pointer. *)
Definition behind (n : knode) (l : list knode) : Prop := exists x, kval n = VPtr (Some (kval x)) /\ ksubs n = [x] /\ ksubs x = l.

(** The fields of a struct: each is zero, or it is written and kept. *)
Definition field_keeps (f : field) (n : knode) : Prop :=
  match xml_info f with
  | None => kval n = zero_of (f_ty f)
  | Some (mkX XCharData _ _ _) => good_text (kval n)
  | Some (mkX XAttribute _ _ omit) =>
      kval n = zero_of (f_ty f) \/ ((omit = true -> empty_value (kval n) = false) /\ keeps n (f_ty f) omit)
  | Some (mkX XElement _ name omit) =>
      kval n = zero_of (f_ty f) \/ (own_name f name /\ (omit = true -> empty_value (kval n) = false) /\ keeps n (f_ty f) omit)
  end.
Fixpoint fields_keep (fs : list field) (ns : list knode) : Prop :=
  match fs, ns with
  | f :: fs', n :: ns' => field_keeps f n /\ fields_keep fs' ns'
  | [], [] => True
  | _, _ => False
  end.

(** An environment variable is a property or a nonempty value. *)
Definition environment_keeps (n : knode) : Prop :=
  match ksubs n with
  | [prop; value] => (here prop (TRef "Property") /\ blank_string value) \/ (absent prop /\ good_nonempty (kval value))
  | _ => False
  end.
(** A license choice is a license and nothing else, or an expression, without licensing
    and properties; its details have no bom-ref. *)
Definition detail_keeps (n : knode) : Prop :=
  match ksubs n with
  | [id; ref; txt; url] => good_text (kval id) /\ blank_string ref /\ maybe txt (TRef "AttachedText") /\ good_text (kval url)
  | _ => False
  end.
Definition license_choice_keeps (n : knode) : Prop :=
  match ksubs n with
  | [license; expression; details; ack; ref; licensing; properties] =>
      absent licensing /\ absent properties /\
      ((here license (TRef "License") /\ blank_string expression /\ absent details /\ absent ack /\ blank_string ref) \/
       (absent license /\ good_nonempty (kval expression) /\ (absent details \/ exists l, behind details l /\ l <> [] /\ list_all detail_keeps l) /\
        (absent ack \/ exists x, kval ack = VPtr (Some x) /\ good_nonempty x) /\ good_text (kval ref)))
  | _ => False
  end.
Definition patent_keeps (n : knode) : Prop :=
  match ksubs n with
  | [patent; family] => (here patent (TRef "Patent") /\ absent family) \/ (absent patent /\ here family (TRef "PatentFamily"))
  | _ => False
  end.

Definition method_keeps (m : method) (fs : list field) (v : val) (ns : list knode) : Prop :=
  match m, ns with
  | MRef, _ => good_text v
  | MCopyright, [txt] => good_text (kval txt)
  | MDependency, [ref; deps; provides] => good_text (kval ref) /\ maybe deps (TSlice TStr) /\ maybe provides (TSlice TStr)
  | MEnvironment, _ => ns <> [] /\ list_all environment_keeps ns
  | MLicenses, _ => ns <> [] /\ list_all license_choice_keeps ns
  | MLicense, _ => fields_keep fs ns
  | MDataset, [ref; data] =>
      (good_nonempty (kval ref) /\ absent data) \/
      (blank_string ref /\ here data (TRef "ComponentData") /\ exists x, kval data = VPtr (Some x) /\ zero_value x = false)
  | MSpecVersion, _ => True
  | MState, [predefined; custom] =>
      (absent custom /\ exists state reason, behind predefined [state; reason] /\ good_nonempty (kval state) /\ good_text (kval reason)) \/
      (absent predefined /\ here custom (TRef "CustomCertificateState"))
  | MExtension, [common; custom] =>
      (absent custom /\ exists name value, behind common [name; value] /\ good_nonempty (kval name) /\ good_text (kval value)) \/
      (absent common /\ here custom (TRef "CustomCertificateExtension"))
  | MAsserter, [org; ind; ref] =>
      (here org (TRef "OrganizationalEntity") /\ absent ind /\ absent ref) \/
      (absent org /\ here ind (TRef "OrganizationalContact") /\ absent ref) \/
      (absent org /\ absent ind /\ here ref (TRef "BOMReference"))
  (* with a reference, which has no white space around it, all else is absent *)
  | MIKEv2, ref :: rest =>
      ((exists s, kval ref = VStr s /\ trim_space (xml_clean s) = s /\ s <> "") /\ map kval rest = zeros (tl fs)) \/
      (blank_string ref /\ fields_keep fs ns)
  | MTools, [tools; comps; servs] =>
      ~ (absent tools /\ absent comps /\ absent servs) /\
      maybe tools (TSlice (TRef "Tool")) /\ maybe comps (TSlice (TRef "Component")) /\ maybe servs (TSlice (TRef "Service"))
  (* a list of identities, not a single one *)
  | MEvidence, [identity; occurrences; callstack; licenses; copyright] =>
      ~ (absent identity /\ absent occurrences /\ absent callstack /\ absent licenses /\ absent copyright) /\
      (absent identity \/ exists one many, behind identity [one; many] /\ absent one /\ here many (TSlice (TRef "EvidenceIdentity"))) /\
      maybe occurrences (TSlice (TRef "EvidenceOccurrence")) /\
      (absent callstack \/ (here callstack (TRef "Callstack") /\ exists l, behind callstack l /\ forallb zero_value (map kval l) = false)) /\
      maybe licenses (TRef "Licenses") /\ maybe copyright (TSlice (TRef "Copyright"))
  | MData, [flow; classification; name; description; governance; source; destination] =>
      good_text (kval flow) /\ good_text (kval classification) /\ good_text (kval name) /\ good_text (kval description) /\
      maybe governance (TRef "DataGovernance") /\ maybe source (TSlice TStr) /\ maybe destination (TSlice TStr)
  | MDefinitions, [standards; patents] =>
      maybe standards (TSlice (TRef "StandardDefinition")) /\ (absent patents \/ exists l, behind patents l /\ l <> [] /\ list_all patent_keeps l)
  | _, _ => False
  end.

(** A value: a pointer leads to something that is kept; a list has elements, all are
    kept, and none is empty under omitempty. *)
Definition value_keeps (v : val) (subs : list knode) (t : ty) (omit : bool) : Prop :=
  match v, subs with
  | VPtr None, _ => False
  | VPtr (Some _), [n] => keeps n (elem_ty t) omit
  | _, _ =>
      match marshaler t with
      | MNone =>
          match v with
          | VSlice _ => subs <> [] /\ list_all (fun n => (omit = true -> empty_value (kval n) = false) /\ keeps n (elem_ty t) omit) subs
          | VStruct _ => fields_keep (fields_of t) subs
          | VStr s => xml_clean s = s
          | _ => True
          end
      | m => method_keeps m (fields_of t) v subs
      end
  end.
Fixpoint keeps_of (v : val) : knode :=
  let subs := match v with
              | VPtr (Some x) => [keeps_of x]
              | VSlice (Some l) => map keeps_of l
              | VStruct l => map keeps_of l
              | _ => []
              end in
  KNode v (value_keeps v subs) subs.

(** A BOM as XML can show it: without the JSON schema, the format and the signature; the
    name is that of the root element, the version that of the name space. *)
Definition xml_view (b : BOM) : BOM :=
  set_BOM_XMLName (mkXMLName (BOM_XMLNS b) "bom")
    (set_BOM_SpecVersion (match_namespace xmlNamespaces (BOM_XMLNS b) 0%Z)
      (set_BOM_JSONSchema "" (set_BOM_BOMFormat "" (set_BOM_Signature None b)))).
(** The parts that XML has a place for. *)
Definition xml_part (b : BOM) : val :=
  reify_BOM (set_BOM_XMLName (mkXMLName "" "") (set_BOM_SpecVersion 0%Z (set_BOM_JSONSchema "" (set_BOM_BOMFormat "" (set_BOM_Signature None b))))).
Definition xml_lossless (b : BOM) : Prop := keeps (keeps_of (xml_part b)) (TRef "BOM") false.
