(** The positions a conversion does not visit. [no_gap_T sv x]: at these positions [x]
    holds nothing newer than [sv]. Everything else about [x] is unrestricted. Each
    clause names a place in which /repo/convert.go leaves newer data behind; the
    theorems in PropsWithin.v show that there is no other place, and give a BOM for
    which the place matters. *)
From Verif Require Import Base Types ConvertSpec Within.
Local Open Scope string_scope.
Local Open Scope Z_scope.

(** The clause only matters from [v] on: before, the field is removed. *)
Definition from (v sv : SpecVersion) (P : Prop) : Prop := v <= sv -> P.

(** Reference types that are not in the converter's list of newer types. *)
Definition unlisted_reference_types : list (string * SpecVersion) :=
  [ ("release-notes", v1_4); ("security-contact", v1_5); ("poam", v1_5); ("source-distribution", v1_6);
    ("electronic-signature", v1_6); ("digital-signature", v1_6); ("rfc-9116", v1_6) ].

(** Hashes of external references are not filtered by algorithm. *)
Definition no_gap_reference (sv : SpecVersion) (r : ExternalReference) : Prop :=
  not_newer unlisted_reference_types sv (ExternalReference_Type r) /\
  from v1_3 sv (all_in (within_Hash sv) (ExternalReference_Hashes r)).

Definition no_gap_license (sv : SpecVersion) (c : LicenseChoice) : Prop :=
  introduced v1_6 sv None (LicenseChoice_Acknowledgement c) /\
  introduced v1_6 sv "" (LicenseChoice_BOMRef c).

(** For 1.0 only licenses with an id or a name survive. *)
Definition no_gap_licenses (sv : SpecVersion) (p : option (option (list LicenseChoice))) : Prop :=
  all_in (fun c => (sv < v1_1 -> exists l, LicenseChoice_License c = Some l /\ (License_ID l <> "" \/ License_Name l <> "")) ->
                   no_gap_license sv c) p.

(** The identity that survives in 1.5: the first of a list, or the single one. *)
Definition surviving_identity (i : EvidenceIdentityChoice) : option EvidenceIdentity :=
  match EvidenceIdentityChoice_Identities i with
  | Some l => match l with Some (x :: _) => Some x | _ => None end
  | None => EvidenceIdentityChoice_Identity i
  end.

(** Evidence: licenses are skipped for 1.3 and 1.4; identity field types are not checked. *)
Definition no_gap_evidence (sv : SpecVersion) (e : Evidence) : Prop :=
  (sv < v1_5 -> all_in (within_LicenseChoice sv) (Evidence_Licenses e)) /\
  from v1_5 sv (no_gap_licenses sv (Evidence_Licenses e)) /\
  from v1_5 sv (inside (fun i => inside (fun x => not_newer EvidenceIdentityFieldType_values sv (EvidenceIdentity_Field x)) (surviving_identity i))
                       (Evidence_Identity e)).

(** Model cards: model parameters and environmental considerations are not visited. *)
Definition no_gap_model_card (sv : SpecVersion) (m : MLModelCard) : Prop :=
  inside (within_MLModelParameters sv) (MLModelCard_ModelParameters m) /\
  inside (fun c => from v1_6 sv (inside (within_MLModelCardEnvironmentalConsiderations sv)
                                        (MLModelCardConsiderations_EnvironmentalConsiderations c)))
         (MLModelCard_Considerations m).

Definition no_gap_crypto (sv : SpecVersion) (c : CryptoProperties) : Prop :=
  inside (fun p => inside (within_IKEv2TransformTypes sv) (CryptoProtocolProperties_IKEv2TransformTypes p))
         (CryptoProperties_ProtocolProperties c).

Definition no_gap_pedigree {C} (P : C -> Prop) (p : Pedigree_ C) : Prop :=
  all_in P (Pedigree_Ancestors p) /\ all_in P (Pedigree_Descendants p) /\ all_in P (Pedigree_Variants p).

(** Components: supplier, data, signature. *)
Fixpoint no_gap_component (sv : SpecVersion) (c : Component) {struct c} : Prop :=
  from v1_2 sv (inside (within_OrganizationalEntity sv) (Component_Supplier c)) /\
  no_gap_licenses sv (Component_Licenses c) /\
  from v1_1 sv (inside (no_gap_pedigree (no_gap_component sv)) (Component_Pedigree c)) /\
  from v1_1 sv (all_in (no_gap_reference sv) (Component_ExternalReferences c)) /\
  all_in (no_gap_component sv) (Component_Components c) /\
  from v1_3 sv (inside (no_gap_evidence sv) (Component_Evidence c)) /\
  from v1_5 sv (inside (no_gap_model_card sv) (Component_ModelCard c)) /\
  from v1_5 sv (all_in (within_ComponentData sv) (Component_Data c)) /\
  from v1_6 sv (inside (no_gap_crypto sv) (Component_CryptoProperties c)) /\
  introduced v1_4 sv None (Component_Signature c).

(** Services: licenses, tags, signature. *)
Fixpoint no_gap_service (sv : SpecVersion) (s : Service) {struct s} : Prop :=
  all_in (within_LicenseChoice sv) (Service_Licenses s) /\
  all_in (no_gap_reference sv) (Service_ExternalReferences s) /\
  all_in (no_gap_service sv) (Service_Services s) /\
  introduced v1_6 sv None (Service_Tags s) /\
  introduced v1_4 sv None (Service_Signature s).

(** Tools: from 1.5 on the components are not visited, and of a service only the provider is. *)
Definition no_gap_tools (sv : SpecVersion) (t : ToolsChoice) : Prop :=
  from v1_4 sv (all_in (fun x => all_in (no_gap_reference sv) (Tool_ExternalReferences x)) (ToolsChoice_Tools t)) /\
  (v1_4 <= sv < v1_5 ->
   all_in (fun x => all_in (no_gap_reference sv) (Component_ExternalReferences x)) (ToolsChoice_Components t) /\
   all_in (fun x => all_in (no_gap_reference sv) (Service_ExternalReferences x)) (ToolsChoice_Services t)) /\
  from v1_5 sv (all_in (within_Component sv) (ToolsChoice_Components t)) /\
  from v1_5 sv (all_in (fun s => within_Service sv (set_Service_Provider None s)) (ToolsChoice_Services t)).

(** Annotators: the component is never visited, the service only for 1.5. *)
Definition no_gap_annotator (sv : SpecVersion) (a : Annotator) : Prop :=
  inside (within_Component sv) (Annotator_Component a) /\
  (sv < v1_6 -> inside (no_gap_service sv) (Annotator_Service a)) /\
  from v1_6 sv (inside (within_Service sv) (Annotator_Service a)).

Definition no_gap_metadata (sv : SpecVersion) (m : Metadata) : Prop :=
  inside (no_gap_tools sv) (Metadata_Tools m) /\
  inside (no_gap_component sv) (Metadata_Component m) /\
  from v1_3 sv (no_gap_licenses sv (Metadata_Licenses m)).

(** The document: properties, signatures, formulation, declarations, standards. *)
Definition no_gap (sv : SpecVersion) (b : BOM) : Prop :=
  from v1_2 sv (inside (no_gap_metadata sv) (BOM_Metadata b)) /\
  all_in (no_gap_component sv) (BOM_Components b) /\
  from v1_2 sv (all_in (no_gap_service sv) (BOM_Services b)) /\
  from v1_1 sv (all_in (no_gap_reference sv) (BOM_ExternalReferences b)) /\
  from v1_3 sv (all_in (fun c => introduced v1_4 sv None (Composition_Signature c)) (BOM_Compositions b)) /\
  introduced v1_3 sv None (BOM_Properties b) /\
  from v1_4 sv (all_in (fun v => inside (no_gap_tools sv) (Vulnerability_Tools v)) (BOM_Vulnerabilities b)) /\
  from v1_5 sv (all_in (fun a => inside (no_gap_annotator sv) (Annotation_Annotator a)) (BOM_Annotations b)) /\
  from v1_5 sv (all_in (within_Formula sv) (BOM_Formulation b)) /\
  from v1_6 sv (inside (within_Declarations sv) (BOM_Declarations b)) /\
  from v1_6 sv (inside (fun d => all_in (within_StandardDefinition sv) (Definitions_Standards d)) (BOM_Definitions b)) /\
  introduced v1_4 sv None (BOM_Signature b).
