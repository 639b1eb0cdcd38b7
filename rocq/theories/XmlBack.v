(** What comes back when a value is written as XML and read again, as a function of the
    value. XmlRound.v proves that the codec does exactly this; XmlSpec.v says when nothing
    changes. *)
From Verif Require Import Base Types Univ TypeTable Wt Reify Consts Version Numbers Utf8 JsonModel XmlModel.
Local Open Scope string_scope.

(** The values that a Go program can hold: integers fit 64 bits, finite floats have the
    form of Types.v, a specification version that is written is one of the known ones. *)
Fixpoint xsane (t : ty) (v : val) {struct v} : Prop :=
  match v with
  | VInt z => match marshaler t with MSpecVersion => parse_spec_version (SpecVersion_String z) = Some z | _ => is_int z = true end
  | VFlt f => match f with FFin _ _ _ => float_ok (match t with TF32 => true | _ => false end) f = true | _ => True end
  | VPtr (Some x) => xsane (elem_ty t) x
  | VSlice (Some l) => list_all (xsane (elem_ty t)) l
  | VStruct vs => zip_all (fun f x => xsane (f_ty f) x) vs (fields_of t)
  | _ => True
  end.

(** A value and what comes back of it: [back t omit] for the type [t] under the option
    omitempty; [None] if no element is written. *)
Inductive bnode := BNode (v : val) (back : ty -> bool -> option val) (subs : list bnode).
Definition bval (n : bnode) : val := match n with BNode v _ _ => v end.
Definition bback (n : bnode) : ty -> bool -> option val := match n with BNode _ b _ => b end.
Definition bsubs (n : bnode) : list bnode := match n with BNode _ _ s => s end.

Definition checked_back (n : bnode) (t : ty) (omit : bool) : option val :=
  if (omit && empty_value (bval n))%bool then None else bback n t omit.
Definition default (t : ty) (o : option val) : val := match o with Some v => v | None => zero_of t end.

(** The type of the elements: a list of them, or a pointer, is written as its elements. *)
Fixpoint core (t : ty) : ty := match t with TPtr t' | TSlice t' => core t' | _ => t end.
Definition is_data (t : ty) : bool := match core t with TRef n => String.eqb n "DataClassification" | _ => false end.
(** A DataClassification is always written as <dataflow>. *)
Definition element_name (t : ty) (name : string) : string := if is_data t then "dataflow" else name.

(** A field. It is lost if it is written under a name that is not its own. *)
Definition back_field (f : field) (n : bnode) : val :=
  match xml_info f with
  | None => zero_of (f_ty f)
  | Some (mkX XAttribute _ _ omit) => default (f_ty f) (checked_back n (f_ty f) omit)
  | Some (mkX XCharData _ _ _) => VStr (xml_clean (str_of (bval n)))
  | Some (mkX XElement _ name omit) =>
      if String.eqb (element_name (f_ty f) name) name then default (f_ty f) (checked_back n (f_ty f) omit) else zero_of (f_ty f)
  end.
Fixpoint back_fields (fs : list field) (ns : list bnode) : list val :=
  match fs, ns with f :: fs', n :: ns' => back_field f n :: back_fields fs' ns' | _, _ => [] end.

Fixpoint somes {A B} (f : A -> option B) (l : list A) : list B :=
  match l with [] => [] | x :: l' => match f x with Some y => y :: somes f l' | None => somes f l' end end.

Definition bset (n : bnode) : bool := nonnil (bval n).
Definition bstr (n : bnode) : string := str_of (bval n).
Definition bfilled (n : bnode) : bool := nonempty (bval n).
Definition bclean (n : bnode) : val := VStr (xml_clean (bstr n)).
Definition bpointee (n : bnode) : list bnode := match bsubs n with [x] => bsubs x | _ => [] end.
Definition bptr (n : bnode) (t : ty) : val := default (TPtr t) (bback n (TPtr t) false).

(** An environment variable with neither property nor value is dropped. *)
Definition back_environment (n : bnode) : option val :=
  match bsubs n with
  | [prop; value] =>
      if bset prop then Some (VStruct [bptr prop (TRef "Property"); VStr ""])
      else if bfilled value then Some (VStruct [VPtr None; bclean value])
      else None
  | _ => None
  end.

(** The bom-ref of an expression detail is lost, and so are an empty list of details and
    the licensing and the properties of a choice. A choice with neither license nor
    expression is dropped; the other fields of a choice with a license are lost. *)
Definition back_detail (n : bnode) : val :=
  match bsubs n with
  | [id; _; txt; url] => VStruct [bclean id; VStr ""; bptr txt (TRef "AttachedText"); bclean url]
  | _ => bval n
  end.
Definition back_license_choice (n : bnode) : option val :=
  match bsubs n with
  | [license; expression; details; ack; ref; _; _] =>
      if bset license then Some (VStruct [bptr license (TRef "License"); VStr ""; VPtr None; VPtr None; VStr ""; VPtr None; VPtr None])
      else if bfilled expression then
        Some (VStruct [VPtr None; bclean expression; ptr_if (map back_detail (bpointee details));
                       str_if (match bval ack with VPtr (Some x) => xml_clean (str_of x) | _ => "" end); bclean ref; VPtr None; VPtr None])
      else None
  | _ => None
  end.

(** Of a patent choice with both alternatives the family is lost; one with neither is dropped. *)
Definition back_patent (n : bnode) : option val :=
  match bsubs n with
  | [patent; family] =>
      if bset patent then Some (VStruct [bptr patent (TRef "Patent"); VPtr None])
      else if bset family then Some (VStruct [VPtr None; bptr family (TRef "PatentFamily")])
      else None
  | _ => None
  end.

Definition drop_if (b : bool) (v : val) : val := if b then VPtr None else v.
Definition deref (v : val) : val := match v with VPtr (Some x) => x | _ => VStruct [] end.

(** The types with methods. *)
Definition back_method (m : method) (fs : list field) (v : val) (ns : list bnode) : option val :=
  match m, ns with
  | MRef, _ => Some (VStr (xml_clean (str_of v)))
  | MCopyright, [txt] => Some (VStruct [bclean txt])
  (* empty lists become absent *)
  | MDependency, [ref; deps; provides] =>
      Some (VStruct [bclean ref; bptr deps (TSlice TStr); bptr provides (TSlice TStr)])
  | MEnvironment, [] | MLicenses, [] => None
  | MEnvironment, _ => Some (VSlice (Some (somes back_environment ns)))
  | MLicenses, _ => Some (VSlice (Some (somes back_license_choice ns)))
  | MLicense, _ => Some (VStruct (back_fields fs ns))
  (* the data is lost if there is also a reference, or if it is zero *)
  | MDataset, [ref; data] =>
      if bfilled ref then Some (VStruct [bclean ref; VPtr None])
      else if bset data then
        Some (VStruct [VStr ""; drop_if (zero_value (deref (bptr data (TRef "ComponentData")))) (bptr data (TRef "ComponentData"))])
      else None
  | MSpecVersion, _ => Some v
  (* a predefined state without a name becomes a custom one *)
  | MState, [predefined; custom] =>
      if bset predefined then
        match bpointee predefined with
        | [state; reason] =>
            Some (VStruct (if bfilled state then [some_ptr (VStruct [bclean state; bclean reason]); VPtr None]
                           else [VPtr None; some_ptr (VStruct [VStr ""; VStr ""; bclean reason])]))
        | _ => None
        end
      else if bset custom then Some (VStruct [VPtr None; bptr custom (TRef "CustomCertificateState")])
      else None
  (* likewise, and the value is lost *)
  | MExtension, [common; custom] =>
      if bset common then
        match bpointee common with
        | [name; value] =>
            Some (VStruct (if bfilled name then [some_ptr (VStruct [bclean name; bclean value]); VPtr None]
                           else [VPtr None; some_ptr (VStruct [VStr ""; VStr ""])]))
        | _ => None
        end
      else if bset custom then Some (VStruct [VPtr None; bptr custom (TRef "CustomCertificateExtension")])
      else None
  (* the reference is lost if there is an organization or an individual *)
  | MAsserter, [org; ind; ref] =>
      if bset org then Some (VStruct [bptr org (TRef "OrganizationalEntity"); VPtr None; VPtr None])
      else if bset ind then Some (VStruct [VPtr None; bptr ind (TRef "OrganizationalContact"); VPtr None])
      else if bset ref then Some (VStruct [VPtr None; VPtr None; bptr ref (TRef "BOMReference")])
      else None
  (* the other fields are lost if there is a reference; surrounding space of the reference is lost *)
  | MIKEv2, ref :: _ =>
      Some (VStruct (if bfilled ref then VStr (trim_space (xml_clean (bstr ref))) :: zeros (tl fs) else back_fields fs ns))
  (* empty lists become absent *)
  | MTools, [tools; comps; servs] =>
      if (bset tools || bset comps || bset servs)%bool
      then Some (VStruct [bptr tools (TSlice (TRef "Tool")); bptr comps (TSlice (TRef "Component")); bptr servs (TSlice (TRef "Service"))])
      else None
  (* a single identity becomes a list, and is lost if there is a list; empty parts become absent *)
  | MEvidence, [identity; occurrences; callstack; licenses; copyright] =>
      if (bset identity || bset occurrences || bset callstack || bset licenses || bset copyright)%bool then
        Some (VStruct
          [ match bpointee identity with
            | [one; many] =>
                let l := if bset many then bptr many (TSlice (TRef "EvidenceIdentity"))
                         else match bptr one (TRef "EvidenceIdentity") with VPtr (Some x) => some_ptr (VSlice (Some [x])) | _ => VPtr None end in
                if nonnil l then some_ptr (VStruct [VPtr None; l]) else VPtr None
            | _ => VPtr None
            end;
            bptr occurrences (TSlice (TRef "EvidenceOccurrence"));
            drop_if (forallb zero_value (fields_of_val (deref (bptr callstack (TRef "Callstack"))))) (bptr callstack (TRef "Callstack"));
            drop_if (empty_value (deref (bptr licenses (TRef "Licenses")))) (bptr licenses (TRef "Licenses"));
            bptr copyright (TSlice (TRef "Copyright")) ])
      else None
  | MData, [flow; classification; name; description; governance; source; destination] =>
      Some (VStruct [bclean flow; bclean classification; bclean name; bclean description;
                     bptr governance (TRef "DataGovernance"); bptr source (TSlice TStr); bptr destination (TSlice TStr)])
  | MDefinitions, [standards; patents] =>
      Some (VStruct [bptr standards (TSlice (TRef "StandardDefinition")); ptr_if (somes back_patent (bpointee patents))])
  | _, _ => None
  end.

(** A value: strings are cleaned; a pointer to something that is not written becomes nil;
    a list loses the elements that are not written, and becomes nil if none is left. *)
Definition back_value (v : val) (subs : list bnode) (t : ty) (omit : bool) : option val :=
  match v, subs with
  | VPtr None, _ => None
  | VPtr (Some _), [n] => option_map some_ptr (bback n (elem_ty t) omit)
  | _, _ =>
      match marshaler t with
      | MNone =>
          match v with
          | VSlice _ =>
              match somes (fun n => checked_back n (elem_ty t) omit) subs with
              | [] => None
              | l => Some (VSlice (Some l))
              end
          | VStruct _ => Some (VStruct (back_fields (fields_of t) subs))
          | VStr s => Some (VStr (xml_clean s))
          | _ => Some v
          end
      | m => back_method m (fields_of t) v subs
      end
  end.
Fixpoint back_of (v : val) : bnode :=
  let subs := match v with
              | VPtr (Some x) => [back_of x]
              | VSlice (Some l) => map back_of l
              | VStruct l => map back_of l
              | _ => []
              end in
  BNode v (back_value v subs) subs.

(** What comes back of a BOM: the decoder sets the name of the root element and the
    version that belongs to the name space. *)
Definition xml_back (b : BOM) : BOM :=
  let b' := reflect_BOM (default (TRef "BOM") (bback (back_of (reify_BOM b)) (TRef "BOM") false)) in
  set_BOM_XMLName (mkXMLName (BOM_XMLNS b') "bom")
    (set_BOM_SpecVersion (match_namespace xmlNamespaces (BOM_XMLNS b') 0%Z) b').
