(** Where components and services sit in a BOM, as paths, and what a version has
    no place for. Specification only: nothing here refers to the model. *)
From Verif Require Import Base Types ConvertSpec.
Local Open Scope string_scope.
Local Open Scope Z_scope.

(** One step from a component to a component inside it. *)
Inductive comp_step :=
| Nested (i : nat)          (* components[i] *)
| Ancestor (i : nat)        (* pedigree.ancestors[i] *)
| Descendant (i : nat)      (* pedigree.descendants[i] *)
| Variant (i : nat).        (* pedigree.variants[i] *)

Definition pedigree_list (c : Component) (f : Pedigree_ Component -> option (option (list Component))) : list Component :=
  match Component_Pedigree c with Some p => members (f p) | None => [] end.

Definition child (c : Component) (s : comp_step) : option Component :=
  match s with
  | Nested i => nth_error (members (Component_Components c)) i
  | Ancestor i => nth_error (pedigree_list c Pedigree_Ancestors) i
  | Descendant i => nth_error (pedigree_list c Pedigree_Descendants) i
  | Variant i => nth_error (pedigree_list c Pedigree_Variants) i
  end.

Fixpoint component_below (c : Component) (steps : list comp_step) : option Component :=
  match steps with
  | [] => Some c
  | s :: steps' => match child c s with Some c' => component_below c' steps' | None => None end
  end.

(** Where a path starts. *)
Inductive comp_root :=
| Listed (i : nat)          (* bom.components[i] *)
| Described.                (* bom.metadata.component *)

Definition root_component (b : BOM) (r : comp_root) : option Component :=
  match r with
  | Listed i => nth_error (members (BOM_Components b)) i
  | Described => match BOM_Metadata b with Some m => Metadata_Component m | None => None end
  end.

(** The component at a path; [None] if there is none. *)
Definition component_at (b : BOM) (r : comp_root) (steps : list comp_step) : option Component :=
  match root_component b r with Some c => component_below c steps | None => None end.

(** Services: bom.services[i].services[j]... *)
Fixpoint service_below (s : Service) (path : list nat) : option Service :=
  match path with
  | [] => Some s
  | i :: path' =>
      match nth_error (members (Service_Services s)) i with Some s' => service_below s' path' | None => None end
  end.

Definition service_at (b : BOM) (i : nat) (path : list nat) : option Service :=
  match nth_error (members (BOM_Services b)) i with Some s => service_below s path | None => None end.

(** ** What a version has a place for: pedigrees exist from 1.1, metadata and
    services from 1.2. *)
Definition is_pedigree_step (s : comp_step) : bool := match s with Nested _ => false | _ => true end.

Definition has_place (sv : SpecVersion) (r : comp_root) (steps : list comp_step) : Prop :=
  (r = Described -> v1_2 <= sv) /\ (existsb is_pedigree_step steps = true -> v1_1 <= sv).

(** ** Fields newer than a version, component by component (C04) *)

(** [older sv v P]: when the target version is older than [v], [P] holds. *)
Definition older (sv v : SpecVersion) (P : Prop) : Prop := sv < v -> P.

Definition licenses_clean (sv : SpecVersion) (p : option (option (list LicenseChoice))) : Prop :=
  forall lc, In lc (members p) ->
    older sv v1_1 (LicenseChoice_Expression lc = "") /\
    older sv v1_7 (LicenseChoice_ExpressionDetails lc = None /\ LicenseChoice_Licensing lc = None /\ LicenseChoice_Properties lc = None) /\
    (forall l, LicenseChoice_License lc = Some l ->
       older sv v1_1 (License_Text l = None /\ License_URL l = "") /\
       older sv v1_5 (License_BOMRef l = "" /\ License_Licensing l = None /\ License_Properties l = None) /\
       older sv v1_6 (License_Acknowledgement l = "")).

Definition extrefs_clean (sv : SpecVersion) (p : option (option (list ExternalReference))) : Prop :=
  forall r, In r (members p) ->
    older sv v1_3 (ExternalReference_Hashes r = None) /\
    older sv v1_7 (ExternalReference_Properties r = None).

Definition evidence_clean (sv : SpecVersion) (e : Evidence) : Prop :=
  older sv v1_5 (Evidence_Identity e = None /\ Evidence_Occurrences e = None /\ Evidence_Callstack e = None) /\
  older sv v1_6 (
    (forall ic, Evidence_Identity e = Some ic ->
       EvidenceIdentityChoice_Identities ic = None /\
       forall i, EvidenceIdentityChoice_Identity ic = Some i -> EvidenceIdentity_ConcludedValue i = "") /\
    (forall o, In o (members (Evidence_Occurrences e)) ->
       EvidenceOccurrence_Line o = None /\ EvidenceOccurrence_Offset o = None /\
       EvidenceOccurrence_Symbol o = "" /\ EvidenceOccurrence_AdditionalContext o = "")).

Definition model_card_clean (sv : SpecVersion) (m : MLModelCard) : Prop :=
  older sv v1_6 (forall c, MLModelCard_Considerations m = Some c -> MLModelCardConsiderations_EnvironmentalConsiderations c = None).

Definition crypto_clean (sv : SpecVersion) (cp : CryptoProperties) : Prop :=
  older sv v1_7 (
    (forall a, CryptoProperties_AlgorithmProperties cp = Some a ->
       CryptoAlgorithmProperties_AlgorithmFamily a = "" /\ CryptoAlgorithmProperties_EllipticCurve a = "") /\
    (forall c, CryptoProperties_CertificateProperties cp = Some c ->
       CertificateProperties_SerialNumber c = "" /\ CertificateProperties_CertificateFileExtension c = "" /\
       CertificateProperties_Fingerprint c = None /\ CertificateProperties_CertificateState c = None /\
       CertificateProperties_CertificateExtensions c = None /\ CertificateProperties_RelatedCryptographicAssets c = None /\
       CertificateProperties_CreationDate c = "" /\ CertificateProperties_ActivationDate c = "" /\
       CertificateProperties_DeactivationDate c = "" /\ CertificateProperties_RevocationDate c = "" /\
       CertificateProperties_DestructionDate c = "") /\
    (forall m, CryptoProperties_RelatedCryptoMaterialProperties cp = Some m ->
       RelatedCryptoMaterialProperties_Fingerprint m = None /\
       RelatedCryptoMaterialProperties_RelatedCryptographicAssets m = None) /\
    (forall p, CryptoProperties_ProtocolProperties cp = Some p ->
       CryptoProtocolProperties_RelatedCryptographicAssets p = None /\
       forall cs, In cs (members (CryptoProtocolProperties_CipherSuites p)) ->
         CipherSuite_TLSGroups cs = None /\ CipherSuite_TLSSignatureSchemes cs = None)).

Definition component_clean (sv : SpecVersion) (c : Component) : Prop :=
  older sv v1_1 (Component_BOMRef c = "" /\ Component_Pedigree c = None /\ Component_ExternalReferences c = None) /\
  older sv v1_2 (Component_MIMEType c = "" /\ Component_Author c = "" /\ Component_Supplier c = None /\ Component_SWID c = None /\
                 forall p, Component_Pedigree c = Some p -> Pedigree_Patches p = None) /\
  older sv v1_3 (Component_Properties c = None /\ Component_Evidence c = None) /\
  older sv v1_4 (Component_ReleaseNotes c = None) /\
  older sv v1_5 (Component_ModelCard c = None /\ Component_Data c = None) /\
  older sv v1_6 (Component_SWHID c = None /\ Component_OmniborID c = None /\ Component_Manufacturer c = None /\
                 Component_Authors c = None /\ Component_Tags c = None /\ Component_CryptoProperties c = None) /\
  older sv v1_7 (Component_IsExternal c = None /\ Component_PatentAssertions c = None /\ Component_VersionRange c = "") /\
  licenses_clean sv (Component_Licenses c) /\
  extrefs_clean sv (Component_ExternalReferences c) /\
  (forall e, Component_Evidence c = Some e -> evidence_clean sv e) /\
  (forall m, Component_ModelCard c = Some m -> model_card_clean sv m) /\
  (forall cp, Component_CryptoProperties c = Some cp -> crypto_clean sv cp) /\
  (* required fields of old versions *)
  older sv v1_1 (Component_Modified c <> None) /\
  older sv v1_4 (Component_Version c <> "").

(** ** Fields that survive because the version defines them. *)
Definition newer (sv v : SpecVersion) (P : Prop) : Prop := v <= sv -> P.

(** The same identity, but for the concluded value. *)
Definition same_identity (i i' : EvidenceIdentity) : Prop :=
  EvidenceIdentity_Field i' = EvidenceIdentity_Field i /\ EvidenceIdentity_Confidence i' = EvidenceIdentity_Confidence i /\
  EvidenceIdentity_Methods i' = EvidenceIdentity_Methods i /\ EvidenceIdentity_Tools i' = EvidenceIdentity_Tools i.

(** Version 1.5 has room for one identity: a list leaves its first element, a single
    identity stays. *)
Definition one_identity (ic ic' : option EvidenceIdentityChoice) : Prop :=
  match ic with
  | None => ic' = None
  | Some x =>
      match EvidenceIdentityChoice_Identities x with
      | None =>
          exists y, ic' = Some y /\
            match EvidenceIdentityChoice_Identity x, EvidenceIdentityChoice_Identity y with
            | Some i, Some i' => same_identity i i'
            | None, None => True
            | _, _ => False
            end
      | Some l =>
          match l with
          | Some (first :: _) => exists y i', ic' = Some y /\ EvidenceIdentityChoice_Identity y = Some i' /\ same_identity first i'
          | _ => ic' = None
          end
      end
  end.

Definition component_kept (sv : SpecVersion) (c c' : Component) : Prop :=
  Component_Publisher c' = Component_Publisher c /\ Component_Group c' = Component_Group c /\
  Component_Name c' = Component_Name c /\ Component_Description c' = Component_Description c /\
  Component_Copyright c' = Component_Copyright c /\ Component_CPE c' = Component_CPE c /\
  Component_PackageURL c' = Component_PackageURL c /\ Component_Signature c' = Component_Signature c /\
  (Component_Version c' = Component_Version c \/ (sv < v1_4 /\ Component_Version c = "" /\ Component_Version c' = "0.0.0")) /\
  (Component_Modified c' = Component_Modified c \/ (sv < v1_1 /\ Component_Modified c = None /\ Component_Modified c' = Some false)) /\
  newer sv v1_1 (Component_BOMRef c' = Component_BOMRef c /\
                 (Component_Pedigree c' = None <-> Component_Pedigree c = None) /\
                 (forall p p', Component_Pedigree c = Some p -> Component_Pedigree c' = Some p' ->
                    Pedigree_Commits p' = Pedigree_Commits p /\ Pedigree_Notes p' = Pedigree_Notes p /\
                    newer sv v1_2 (Pedigree_Patches p' = Pedigree_Patches p))) /\
  newer sv v1_2 (Component_MIMEType c' = Component_MIMEType c /\ Component_Author c' = Component_Author c /\
                 Component_Supplier c' = Component_Supplier c /\ Component_SWID c' = Component_SWID c) /\
  newer sv v1_3 (Component_Properties c' = Component_Properties c /\
                 (forall e, Component_Evidence c = Some e ->
                    exists e', Component_Evidence c' = Some e' /\ Evidence_Copyright e' = Evidence_Copyright e /\
                      newer sv v1_5 (Evidence_Callstack e' = Evidence_Callstack e) /\
                      (sv = v1_5 -> one_identity (Evidence_Identity e) (Evidence_Identity e') /\
                         Forall2 (fun o o' => EvidenceOccurrence_BOMRef o' = EvidenceOccurrence_BOMRef o /\
                                              EvidenceOccurrence_Location o' = EvidenceOccurrence_Location o)
                                 (members (Evidence_Occurrences e)) (members (Evidence_Occurrences e'))) /\
                      newer sv v1_6 (Evidence_Identity e' = Evidence_Identity e /\ Evidence_Occurrences e' = Evidence_Occurrences e))) /\
  newer sv v1_4 (Component_ReleaseNotes c' = Component_ReleaseNotes c) /\
  newer sv v1_5 (Component_Data c' = Component_Data c) /\
  newer sv v1_6 (Component_SWHID c' = Component_SWHID c /\ Component_OmniborID c' = Component_OmniborID c /\
                 Component_Manufacturer c' = Component_Manufacturer c /\ Component_Authors c' = Component_Authors c /\
                 Component_Tags c' = Component_Tags c /\ Component_ModelCard c' = Component_ModelCard c) /\
  newer sv v1_7 (Component_IsExternal c' = Component_IsExternal c /\ Component_PatentAssertions c' = Component_PatentAssertions c /\
                 Component_VersionRange c' = Component_VersionRange c /\
                 Component_Evidence c' = Component_Evidence c /\ Component_Licenses c' = Component_Licenses c).

(** ** Services (C05) *)

Definition entity_clean (sv : SpecVersion) (o : OrganizationalEntity) : Prop :=
  older sv v1_5 (OrganizationalEntity_BOMRef o = "" /\
                 forall c, In c (members (OrganizationalEntity_Contact o)) -> OrganizationalContact_BOMRef c = "") /\
  older sv v1_6 (OrganizationalEntity_Address o = None).

Definition service_clean (sv : SpecVersion) (s : Service) : Prop :=
  older sv v1_3 (Service_Properties s = None) /\
  older sv v1_4 (Service_ReleaseNotes s = None) /\
  older sv v1_5 (Service_TrustZone s = "") /\
  older sv v1_6 (forall d, In d (members (Service_Data s)) ->
                   DataClassification_Name d = "" /\ DataClassification_Description d = "" /\
                   DataClassification_Governance d = None /\ DataClassification_Source d = None /\
                   DataClassification_Destination d = None) /\
  older sv v1_7 (Service_PatentAssertions s = None) /\
  (forall p, Service_Provider s = Some p -> entity_clean sv p) /\
  extrefs_clean sv (Service_ExternalReferences s).

Definition service_kept (sv : SpecVersion) (s s' : Service) : Prop :=
  Service_BOMRef s' = Service_BOMRef s /\ Service_Group s' = Service_Group s /\ Service_Name s' = Service_Name s /\
  Service_Version s' = Service_Version s /\ Service_Description s' = Service_Description s /\
  Service_Endpoints s' = Service_Endpoints s /\ Service_Authenticated s' = Service_Authenticated s /\
  Service_CrossesTrustBoundary s' = Service_CrossesTrustBoundary s /\ Service_Licenses s' = Service_Licenses s /\
  Service_Tags s' = Service_Tags s /\ Service_Signature s' = Service_Signature s /\
  map DataClassification_Flow (members (Service_Data s')) = map DataClassification_Flow (members (Service_Data s)) /\
  map DataClassification_Classification (members (Service_Data s')) = map DataClassification_Classification (members (Service_Data s)) /\
  map ExternalReference_URL (members (Service_ExternalReferences s')) = map ExternalReference_URL (members (Service_ExternalReferences s)) /\
  map ExternalReference_Comment (members (Service_ExternalReferences s')) = map ExternalReference_Comment (members (Service_ExternalReferences s)) /\
  option_map OrganizationalEntity_Name (Service_Provider s') = option_map OrganizationalEntity_Name (Service_Provider s) /\
  option_map OrganizationalEntity_URL (Service_Provider s') = option_map OrganizationalEntity_URL (Service_Provider s) /\
  newer sv v1_3 (Service_Properties s' = Service_Properties s) /\
  newer sv v1_4 (Service_ReleaseNotes s' = Service_ReleaseNotes s) /\
  newer sv v1_5 (Service_TrustZone s' = Service_TrustZone s) /\
  newer sv v1_6 (Service_Data s' = Service_Data s /\ Service_Provider s' = Service_Provider s) /\
  newer sv v1_7 (Service_PatentAssertions s' = Service_PatentAssertions s).

(** ** Licenses (C06) *)

(** What identifies a license choice: the license id and name, and the expression. *)
Definition license_names (lc : LicenseChoice) : option (string * string) :=
  option_map (fun l => (License_ID l, License_Name l)) (LicenseChoice_License lc).

(** A license choice that survives: nothing the version defines is altered. *)
Definition license_kept (sv : SpecVersion) (lc lc' : LicenseChoice) : Prop :=
  license_names lc' = license_names lc /\
  LicenseChoice_Acknowledgement lc' = LicenseChoice_Acknowledgement lc /\
  LicenseChoice_BOMRef lc' = LicenseChoice_BOMRef lc /\
  newer sv v1_1 (LicenseChoice_Expression lc' = LicenseChoice_Expression lc /\
                 option_map License_Text (LicenseChoice_License lc') = option_map License_Text (LicenseChoice_License lc) /\
                 option_map License_URL (LicenseChoice_License lc') = option_map License_URL (LicenseChoice_License lc)) /\
  newer sv v1_5 (option_map License_BOMRef (LicenseChoice_License lc') = option_map License_BOMRef (LicenseChoice_License lc) /\
                 option_map License_Properties (LicenseChoice_License lc') = option_map License_Properties (LicenseChoice_License lc)) /\
  newer sv v1_6 (LicenseChoice_License lc' = LicenseChoice_License lc) /\
  newer sv v1_7 (lc' = lc).

(** The license list [p'] is [p] for version [sv]: below 1.1 exactly the choices
    that name a license survive, in order; from 1.1 on all of them. *)
Definition licenses_downgraded (sv : SpecVersion) (p p' : option (option (list LicenseChoice))) : Prop :=
  (p' = None <-> p = None) /\
  older sv v1_1 (Forall2 (license_kept sv) (filter named_license (members p)) (members p') /\
                 forall lc', In lc' (members p') -> named_license lc' = true) /\
  newer sv v1_1 (Forall2 (license_kept sv) (members p) (members p')) /\
  licenses_clean sv p'.

(** ** Hashes (C07) *)

Definition hashes_downgraded (sv : SpecVersion) (p p' : option (option (list Hash))) : Prop :=
  (p' = None <-> p = None) /\
  members p' = filter (fun h => in_enum hash_algorithms sv (Hash_Algorithm h)) (members p).

(** ** Enumerations (C09) *)

(** [t'] is [t] if the version defines it, otherwise the fallback. *)
Definition downgraded (defined : bool) (fallback t t' : string) : Prop :=
  (defined = true /\ t' = t) \/ (defined = false /\ t' = fallback).

Definition extref_types_downgraded (sv : SpecVersion) (p p' : option (option (list ExternalReference))) : Prop :=
  Forall2 (fun r r' => downgraded (in_open_enum external_reference_types v1_1 sv (ExternalReference_Type r)) "other"
                                  (ExternalReference_Type r) (ExternalReference_Type r') /\
                       ExternalReference_URL r' = ExternalReference_URL r /\
                       ExternalReference_Comment r' = ExternalReference_Comment r)
          (members p) (members p').

(** ** Tools (C08) *)

Definition component_vendor (c : Component) : string :=
  match Component_Supplier c with Some s => OrganizationalEntity_Name s | None => Component_Author c end.
Definition service_vendor (s : Service) : string :=
  match Service_Provider s with Some p => OrganizationalEntity_Name p | None => "" end.

(** The flat list of tools [l'] stands for the tools, components and services of [t]. *)
Definition tools_flattened (sv : SpecVersion) (t : ToolsChoice) (t' : ToolsChoice) : Prop :=
  let ts := members (ToolsChoice_Tools t) in
  let cs := members (ToolsChoice_Components t) in
  let ss := members (ToolsChoice_Services t) in
  let ts' := members (ToolsChoice_Tools t') in
  ToolsChoice_Components t' = None /\ ToolsChoice_Services t' = None /\
  map Tool_Name ts' = (map Tool_Name ts ++ map Component_Name cs ++ map Service_Name ss)%list /\
  map Tool_Version ts' = (map Tool_Version ts ++ map Component_Version cs ++ map Service_Version ss)%list /\
  map Tool_Vendor ts' = (map Tool_Vendor ts ++ map component_vendor cs ++ map service_vendor ss)%list /\
  Forall2 (hashes_downgraded sv) (map Tool_Hashes ts ++ map Component_Hashes cs ++ map (fun _ => None) ss)%list (map Tool_Hashes ts') /\
  older sv v1_4 (Forall (fun t => Tool_ExternalReferences t = None) ts') /\
  newer sv v1_4 (Forall2 (extref_types_downgraded sv)
                   (map Tool_ExternalReferences ts ++ map Component_ExternalReferences cs ++ map Service_ExternalReferences ss)%list
                   (map Tool_ExternalReferences ts')).

(** From 1.5 on nothing is moved. *)
Definition tools_in_place (sv : SpecVersion) (t : ToolsChoice) (t' : ToolsChoice) : Prop :=
  ToolsChoice_Components t' = ToolsChoice_Components t /\
  (ToolsChoice_Tools t' = None <-> ToolsChoice_Tools t = None) /\
  (ToolsChoice_Services t' = None <-> ToolsChoice_Services t = None) /\
  Forall2 (fun x x' => Tool_Name x' = Tool_Name x /\ Tool_Version x' = Tool_Version x /\ Tool_Vendor x' = Tool_Vendor x /\
                       hashes_downgraded sv (Tool_Hashes x) (Tool_Hashes x') /\
                       extref_types_downgraded sv (Tool_ExternalReferences x) (Tool_ExternalReferences x'))
          (members (ToolsChoice_Tools t)) (members (ToolsChoice_Tools t')) /\
  Forall2 (fun s s' => set_Service_Provider None s' = set_Service_Provider None s /\
                       option_map OrganizationalEntity_Name (Service_Provider s') = option_map OrganizationalEntity_Name (Service_Provider s) /\
                       (forall p, Service_Provider s' = Some p -> entity_clean sv p) /\
                       newer sv v1_6 (s' = s))
          (members (ToolsChoice_Services t)) (members (ToolsChoice_Services t')).

Definition tools_downgraded (sv : SpecVersion) (p p' : option ToolsChoice) : Prop :=
  match p, p' with
  | None, None => True
  | Some t, Some t' => older sv v1_5 (tools_flattened sv t t') /\ newer sv v1_5 (tools_in_place sv t t')
  | _, _ => False
  end.

(** ** Top-level sections (C03) *)

Definition sections_removed (sv : SpecVersion) (b' : BOM) : Prop :=
  older sv v1_1 (BOM_SerialNumber b' = "" /\ BOM_ExternalReferences b' = None) /\
  older sv v1_2 (BOM_Dependencies b' = None /\ BOM_Metadata b' = None /\ BOM_Services b' = None) /\
  older sv v1_3 (BOM_Compositions b' = None) /\
  older sv v1_4 (BOM_Vulnerabilities b' = None) /\
  older sv v1_5 (BOM_Annotations b' = None /\ BOM_Formulation b' = None) /\
  older sv v1_6 (BOM_Declarations b' = None /\ BOM_Definitions b' = None /\
                 forall d, In d (members (BOM_Dependencies b')) -> Dependency_Provides d = None) /\
  older sv v1_7 (BOM_Citations b' = None /\
                 forall d, BOM_Definitions b' = Some d -> Definitions_Patents d = None) /\
  extrefs_clean sv (BOM_ExternalReferences b').

(** Sections the version knows are kept: they stay absent or present, and parts the
    converter has no business with are the same. *)
Definition sections_kept (sv : SpecVersion) (b b' : BOM) : Prop :=
  BOM_XMLName b' = BOM_XMLName b /\ BOM_BOMFormat b' = BOM_BOMFormat b /\ BOM_Version b' = BOM_Version b /\
  BOM_Properties b' = BOM_Properties b /\ BOM_Signature b' = BOM_Signature b /\
  (BOM_Components b' = None <-> BOM_Components b = None) /\
  newer sv v1_1 (BOM_SerialNumber b' = BOM_SerialNumber b /\
                 (BOM_ExternalReferences b' = None <-> BOM_ExternalReferences b = None)) /\
  newer sv v1_2 ((BOM_Metadata b' = None <-> BOM_Metadata b = None) /\
                 (BOM_Services b' = None <-> BOM_Services b = None) /\
                 (BOM_Dependencies b' = None <-> BOM_Dependencies b = None)) /\
  newer sv v1_3 (BOM_Compositions b' = None <-> BOM_Compositions b = None) /\
  newer sv v1_4 (BOM_Vulnerabilities b' = None <-> BOM_Vulnerabilities b = None) /\
  newer sv v1_5 ((BOM_Annotations b' = None <-> BOM_Annotations b = None) /\ BOM_Formulation b' = BOM_Formulation b) /\
  newer sv v1_6 (BOM_Declarations b' = BOM_Declarations b /\
                 option_map Definitions_Standards (BOM_Definitions b') = option_map Definitions_Standards (BOM_Definitions b) /\
                 BOM_Dependencies b' = BOM_Dependencies b /\ BOM_Annotations b' = BOM_Annotations b) /\
  newer sv v1_7 (BOM_Citations b' = BOM_Citations b /\ BOM_Definitions b' = BOM_Definitions b).

(** Version-gated fields inside metadata, compositions and vulnerabilities. *)
Definition metadata_clean (sv : SpecVersion) (m : Metadata) : Prop :=
  older sv v1_3 (Metadata_Licenses m = None /\ Metadata_Properties m = None) /\
  older sv v1_5 (Metadata_Lifecycles m = None /\
                 forall c, In c (members (Metadata_Authors m)) -> OrganizationalContact_BOMRef c = "") /\
  older sv v1_6 (Metadata_Manufacturer m = None) /\
  older sv v1_7 (Metadata_DistributionConstraints m = None) /\
  (forall o, Metadata_Manufacture m = Some o -> entity_clean sv o) /\
  (forall o, Metadata_Supplier m = Some o -> entity_clean sv o) /\
  licenses_clean sv (Metadata_Licenses m).

Definition metadata_kept (sv : SpecVersion) (m m' : Metadata) : Prop :=
  Metadata_Timestamp m' = Metadata_Timestamp m /\
  map (fun c => (OrganizationalContact_Name c, OrganizationalContact_Email c, OrganizationalContact_Phone c)) (members (Metadata_Authors m')) =
  map (fun c => (OrganizationalContact_Name c, OrganizationalContact_Email c, OrganizationalContact_Phone c)) (members (Metadata_Authors m)) /\
  newer sv v1_3 (licenses_downgraded sv (Metadata_Licenses m) (Metadata_Licenses m') /\ Metadata_Properties m' = Metadata_Properties m) /\
  newer sv v1_5 (Metadata_Lifecycles m' = Metadata_Lifecycles m /\ Metadata_Authors m' = Metadata_Authors m) /\
  newer sv v1_6 (Metadata_Manufacturer m' = Metadata_Manufacturer m /\ Metadata_Manufacture m' = Metadata_Manufacture m /\
                 Metadata_Supplier m' = Metadata_Supplier m) /\
  newer sv v1_7 (Metadata_DistributionConstraints m' = Metadata_DistributionConstraints m).

Definition composition_downgraded (sv : SpecVersion) (c c' : Composition) : Prop :=
  Composition_Assemblies c' = Composition_Assemblies c /\ Composition_Dependencies c' = Composition_Dependencies c /\
  Composition_Signature c' = Composition_Signature c /\
  downgraded (in_open_enum composition_aggregates v1_3 sv (Composition_Aggregate c)) "unknown" (Composition_Aggregate c) (Composition_Aggregate c') /\
  older sv v1_5 (Composition_BOMRef c' = "" /\ Composition_Vulnerabilities c' = None) /\
  newer sv v1_5 (Composition_BOMRef c' = Composition_BOMRef c /\ Composition_Vulnerabilities c' = Composition_Vulnerabilities c).

Definition rating_downgraded (sv : SpecVersion) (r r' : VulnerabilityRating) : Prop :=
  VulnerabilityRating_Source r' = VulnerabilityRating_Source r /\ VulnerabilityRating_Score r' = VulnerabilityRating_Score r /\
  VulnerabilityRating_Severity r' = VulnerabilityRating_Severity r /\ VulnerabilityRating_Vector r' = VulnerabilityRating_Vector r /\
  VulnerabilityRating_Justification r' = VulnerabilityRating_Justification r /\
  downgraded (in_enum scoring_methods sv (VulnerabilityRating_Method r)) "other" (VulnerabilityRating_Method r) (VulnerabilityRating_Method r').

Definition vulnerability_downgraded (sv : SpecVersion) (v v' : Vulnerability) : Prop :=
  Vulnerability_BOMRef v' = Vulnerability_BOMRef v /\ Vulnerability_ID v' = Vulnerability_ID v /\
  Vulnerability_Source v' = Vulnerability_Source v /\ Vulnerability_References v' = Vulnerability_References v /\
  Vulnerability_CWEs v' = Vulnerability_CWEs v /\ Vulnerability_Description v' = Vulnerability_Description v /\
  Vulnerability_Detail v' = Vulnerability_Detail v /\ Vulnerability_Recommendation v' = Vulnerability_Recommendation v /\
  Vulnerability_Advisories v' = Vulnerability_Advisories v /\ Vulnerability_Created v' = Vulnerability_Created v /\
  Vulnerability_Published v' = Vulnerability_Published v /\ Vulnerability_Updated v' = Vulnerability_Updated v /\
  Vulnerability_Affects v' = Vulnerability_Affects v /\ Vulnerability_Properties v' = Vulnerability_Properties v /\
  Forall2 (rating_downgraded sv) (members (Vulnerability_Ratings v)) (members (Vulnerability_Ratings v')) /\
  tools_downgraded sv (Vulnerability_Tools v) (Vulnerability_Tools v') /\
  (* below 1.5 *)
  older sv v1_5 (Vulnerability_ProofOfConcept v' = None /\ Vulnerability_Rejected v' = "" /\ Vulnerability_Workaround v' = "" /\
                 forall a, Vulnerability_Analysis v' = Some a ->
                   VulnerabilityAnalysis_FirstIssued a = "" /\ VulnerabilityAnalysis_LastUpdated a = "") /\
  option_map VulnerabilityAnalysis_State (Vulnerability_Analysis v') = option_map VulnerabilityAnalysis_State (Vulnerability_Analysis v) /\
  option_map VulnerabilityAnalysis_Justification (Vulnerability_Analysis v') = option_map VulnerabilityAnalysis_Justification (Vulnerability_Analysis v) /\
  option_map VulnerabilityAnalysis_Response (Vulnerability_Analysis v') = option_map VulnerabilityAnalysis_Response (Vulnerability_Analysis v) /\
  option_map VulnerabilityAnalysis_Detail (Vulnerability_Analysis v') = option_map VulnerabilityAnalysis_Detail (Vulnerability_Analysis v) /\
  newer sv v1_5 (Vulnerability_ProofOfConcept v' = Vulnerability_ProofOfConcept v /\ Vulnerability_Rejected v' = Vulnerability_Rejected v /\
                 Vulnerability_Workaround v' = Vulnerability_Workaround v /\ Vulnerability_Analysis v' = Vulnerability_Analysis v) /\
  (* credits *)
  (forall cr, Vulnerability_Credits v' = Some cr ->
     (forall o, In o (members (Credits_Organizations cr)) -> entity_clean sv o) /\
     older sv v1_5 (forall i, In i (members (Credits_Individuals cr)) -> OrganizationalContact_BOMRef i = "")) /\
  newer sv v1_6 (Vulnerability_Credits v' = Vulnerability_Credits v).

(** ** Component details that are downgraded rather than removed (C06, C07, C09) *)
Definition crypto_enums_downgraded (sv : SpecVersion) (cp cp' : CryptoProperties) : Prop :=
  (forall a a', CryptoProperties_AlgorithmProperties cp = Some a -> CryptoProperties_AlgorithmProperties cp' = Some a' ->
     downgraded (in_open_enum crypto_primitives v1_6 sv (CryptoAlgorithmProperties_Primitive a)) ""
                (CryptoAlgorithmProperties_Primitive a) (CryptoAlgorithmProperties_Primitive a')) /\
  (forall p p', CryptoProperties_ProtocolProperties cp = Some p -> CryptoProperties_ProtocolProperties cp' = Some p' ->
     downgraded (in_open_enum crypto_protocol_types v1_6 sv (CryptoProtocolProperties_Type p)) ""
                (CryptoProtocolProperties_Type p) (CryptoProtocolProperties_Type p')).

Definition component_enums_downgraded (sv : SpecVersion) (c c' : Component) : Prop :=
  downgraded (in_enum component_types sv (Component_Type c)) "application" (Component_Type c) (Component_Type c') /\
  downgraded (in_enum scopes sv (Component_Scope c)) "" (Component_Scope c) (Component_Scope c') /\
  newer sv v1_1 (extref_types_downgraded sv (Component_ExternalReferences c) (Component_ExternalReferences c')) /\
  newer sv v1_6 (forall cp, Component_CryptoProperties c = Some cp ->
                   exists cp', Component_CryptoProperties c' = Some cp' /\ crypto_enums_downgraded sv cp cp').
