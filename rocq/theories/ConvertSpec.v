(** What a conversion to a specification version is supposed to do, as data: for
    every field the version that introduced it, for every enumeration the version
    that introduced each value. Independent of ConvertModel.v: no helper of the
    model is used, versions and enumeration values are written out. *)
From Verif Require Import Base Types.
Local Open Scope string_scope.
Local Open Scope Z_scope.

(** Specification versions, oldest first. *)
Definition v1_0 : SpecVersion := 1.
Definition v1_1 : SpecVersion := 2.
Definition v1_2 : SpecVersion := 3.
Definition v1_3 : SpecVersion := 4.
Definition v1_4 : SpecVersion := 5.
Definition v1_5 : SpecVersion := 6.
Definition v1_6 : SpecVersion := 7.
Definition v1_7 : SpecVersion := 8.

(** [x] if the target version is [v] or newer, otherwise [z]. *)
Definition since {A} (v : SpecVersion) (z : A) (sv : SpecVersion) (x : A) : A :=
  if v <=? sv then x else z.
Arguments since {A} v z sv x : simpl never.

(** A pointer field, a string field introduced in [v]. *)
Definition ptr_since {A} (v sv : SpecVersion) (x : option A) : option A := since v None sv x.
Definition str_since (v sv : SpecVersion) (x : string) : string := since v "" sv x.

(** ** Enumerations *)

Definition enum := list (string * SpecVersion).

(** [t] is a value of the enumeration in version [sv]. *)
Fixpoint in_enum (e : enum) (sv : SpecVersion) (t : string) : bool :=
  match e with
  | [] => false
  | (s, v) :: e' => if String.eqb s t then v <=? sv else in_enum e' sv t
  end.

(** As [in_enum], but values that are not listed count as introduced in [v]. *)
Fixpoint in_open_enum (e : enum) (v : SpecVersion) (sv : SpecVersion) (t : string) : bool :=
  match e with
  | [] => v <=? sv
  | (s, v') :: e' => if String.eqb s t then v' <=? sv else in_open_enum e' v sv t
  end.

Definition component_types : enum :=
  [ ("application", v1_0); ("framework", v1_0); ("library", v1_0); ("operating-system", v1_0); ("device", v1_0);
    ("file", v1_1); ("container", v1_2); ("firmware", v1_2);
    ("platform", v1_5); ("device-driver", v1_5); ("machine-learning-model", v1_5); ("data", v1_5) ].

Definition scopes : enum := [ ("required", v1_0); ("optional", v1_0); ("excluded", v1_2) ].

Definition hash_algorithms : enum :=
  [ ("MD5", v1_0); ("SHA-1", v1_0); ("SHA-256", v1_0); ("SHA-384", v1_0); ("SHA-512", v1_0); ("SHA3-256", v1_0); ("SHA3-512", v1_0);
    ("SHA3-384", v1_2); ("BLAKE2b-256", v1_2); ("BLAKE2b-384", v1_2); ("BLAKE2b-512", v1_2); ("BLAKE3", v1_2);
    ("Streebog-256", v1_7); ("Streebog-512", v1_7) ].

Definition scoring_methods : enum :=
  [ ("CVSSv2", v1_4); ("CVSSv3", v1_4); ("CVSSv31", v1_4); ("OWASP", v1_4); ("other", v1_4); ("CVSSv4", v1_5); ("SSVC", v1_5) ].

(** Values not listed are accepted from the version that introduced the field. *)
Definition external_reference_types : enum :=
  [ ("adversary-model", v1_5); ("attestation", v1_5); ("certification-report", v1_5); ("codified-infrastructure", v1_5);
    ("component-analysis-report", v1_5); ("configuration", v1_5); ("distribution-intake", v1_5); ("dynamic-analysis-report", v1_5);
    ("evidence", v1_5); ("exploitability-statement", v1_5); ("formulation", v1_5); ("log", v1_5); ("maturity-report", v1_5);
    ("model-card", v1_5); ("pentest-report", v1_5); ("quality-metrics", v1_5); ("risk-assessment", v1_5);
    ("runtime-analysis-report", v1_5); ("static-analysis-report", v1_5); ("threat-model", v1_5); ("vulnerability-assertion", v1_5);
    ("patent", v1_7); ("patent-family", v1_7); ("patent-assertion", v1_7); ("citation", v1_7) ].

Definition composition_aggregates : enum :=
  [ ("incomplete_first_party_opensource_only", v1_5); ("incomplete_first_party_proprietary_only", v1_5);
    ("incomplete_third_party_opensource_only", v1_5); ("incomplete_third_party_proprietary_only", v1_5) ].

Definition crypto_primitives : enum := [ ("key-wrap", v1_7) ].

Definition crypto_protocol_types : enum :=
  [ ("dtls", v1_7); ("quic", v1_7); ("eap-aka", v1_7); ("eap-aka-prime", v1_7); ("prins", v1_7); ("5g-aka", v1_7) ].

(** An unsupported value becomes the fallback. *)
Definition enum_or (fallback : string) (e : enum) (sv : SpecVersion) (t : string) : string :=
  if in_enum e sv t then t else fallback.
Definition open_enum_or (fallback : string) (e : enum) (v sv : SpecVersion) (t : string) : string :=
  if in_open_enum e v sv t then t else fallback.

(** ** Lists behind pointers *)

(** Every element is replaced by its image, in place; nothing is lost or added. *)
Definition in_place {A B} (f : A -> B) (p : option (option (list A))) : option (option (list B)) :=
  match p with
  | Some (Some l) => Some (Some (map f l))
  | Some None => Some None
  | None => None
  end.

Definition if_present {A B} (f : A -> B) (p : option A) : option B :=
  match p with Some x => Some (f x) | None => None end.

(** A list that became empty is left behind as a nil list. *)
Definition non_empty {A} (l : list A) : option (list A) := match l with [] => None | _ => Some l end.

(** The elements satisfying [p]; the pointer stays. *)
Definition keep {A} (f : A -> bool) (p : option (option (list A))) : option (option (list A)) :=
  match p with
  | Some (Some l) => Some (non_empty (filter f l))
  | Some None => Some None
  | None => None
  end.

(** ** Records *)

Definition contact_in (sv : SpecVersion) (c : OrganizationalContact) : OrganizationalContact :=
  {| OrganizationalContact_BOMRef := str_since v1_5 sv (OrganizationalContact_BOMRef c);
     OrganizationalContact_Name   := OrganizationalContact_Name c;
     OrganizationalContact_Email  := OrganizationalContact_Email c;
     OrganizationalContact_Phone  := OrganizationalContact_Phone c |}.

Definition entity_in (sv : SpecVersion) (o : OrganizationalEntity) : OrganizationalEntity :=
  {| OrganizationalEntity_BOMRef  := str_since v1_5 sv (OrganizationalEntity_BOMRef o);
     OrganizationalEntity_Name    := OrganizationalEntity_Name o;
     OrganizationalEntity_Address := ptr_since v1_6 sv (OrganizationalEntity_Address o);
     OrganizationalEntity_URL     := OrganizationalEntity_URL o;
     OrganizationalEntity_Contact := in_place (contact_in sv) (OrganizationalEntity_Contact o) |}.

Definition data_in (sv : SpecVersion) (d : DataClassification) : DataClassification :=
  {| DataClassification_Flow           := DataClassification_Flow d;
     DataClassification_Classification := DataClassification_Classification d;
     DataClassification_Name           := str_since v1_6 sv (DataClassification_Name d);
     DataClassification_Description    := str_since v1_6 sv (DataClassification_Description d);
     DataClassification_Governance     := ptr_since v1_6 sv (DataClassification_Governance d);
     DataClassification_Source         := ptr_since v1_6 sv (DataClassification_Source d);
     DataClassification_Destination    := ptr_since v1_6 sv (DataClassification_Destination d) |}.

Definition extref_in (sv : SpecVersion) (r : ExternalReference) : ExternalReference :=
  {| ExternalReference_URL        := ExternalReference_URL r;
     ExternalReference_Comment    := ExternalReference_Comment r;
     ExternalReference_Hashes     := ptr_since v1_3 sv (ExternalReference_Hashes r);
     ExternalReference_Type       := open_enum_or "other" external_reference_types v1_1 sv (ExternalReference_Type r);
     ExternalReference_Properties := ptr_since v1_7 sv (ExternalReference_Properties r) |}.

Definition hashes_in (sv : SpecVersion) := keep (fun h => in_enum hash_algorithms sv (Hash_Algorithm h)).

Definition party_in (sv : SpecVersion) (p : OrganizationalEntityOrContact) : OrganizationalEntityOrContact :=
  {| OrganizationalEntityOrContact_Organization := if_present (entity_in sv) (OrganizationalEntityOrContact_Organization p);
     OrganizationalEntityOrContact_Individual   := OrganizationalEntityOrContact_Individual p |}.

Definition licensing_in (sv : SpecVersion) (l : Licensing) : Licensing :=
  {| Licensing_AltIDs        := Licensing_AltIDs l;
     Licensing_Licensor      := if_present (party_in sv) (Licensing_Licensor l);
     Licensing_Licensee      := if_present (party_in sv) (Licensing_Licensee l);
     Licensing_Purchaser     := if_present (party_in sv) (Licensing_Purchaser l);
     Licensing_PurchaseOrder := Licensing_PurchaseOrder l;
     Licensing_LicenseTypes  := Licensing_LicenseTypes l;
     Licensing_LastRenewal   := Licensing_LastRenewal l;
     Licensing_Expiration    := Licensing_Expiration l |}.

Definition license_in (sv : SpecVersion) (l : License) : License :=
  {| License_BOMRef          := str_since v1_5 sv (License_BOMRef l);
     License_ID              := License_ID l;
     License_Name            := License_Name l;
     License_Acknowledgement := str_since v1_6 sv (License_Acknowledgement l);
     License_Text            := ptr_since v1_1 sv (License_Text l);
     License_URL             := str_since v1_1 sv (License_URL l);
     License_Licensing       := ptr_since v1_5 sv (if_present (licensing_in sv) (License_Licensing l));
     License_Properties      := ptr_since v1_5 sv (License_Properties l) |}.

(** LicenseChoice.Acknowledgement and LicenseChoice.BOMRef are never removed (a
    finding: they are newer than 1.0). *)
Definition license_choice_in (sv : SpecVersion) (c : LicenseChoice) : LicenseChoice :=
  {| LicenseChoice_License           := if_present (license_in sv) (LicenseChoice_License c);
     LicenseChoice_Expression        := str_since v1_1 sv (LicenseChoice_Expression c);
     LicenseChoice_ExpressionDetails := ptr_since v1_7 sv (LicenseChoice_ExpressionDetails c);
     LicenseChoice_Acknowledgement   := LicenseChoice_Acknowledgement c;
     LicenseChoice_BOMRef            := LicenseChoice_BOMRef c;
     LicenseChoice_Licensing         := ptr_since v1_7 sv (LicenseChoice_Licensing c);
     LicenseChoice_Properties        := ptr_since v1_7 sv (LicenseChoice_Properties c) |}.

(** Version 1.0 has no expressions: it keeps only choices that name a license. *)
Definition named_license (c : LicenseChoice) : bool :=
  match LicenseChoice_License c with
  | Some l => negb (String.eqb (License_ID l) "" && String.eqb (License_Name l) "")
  | None => false
  end.

Definition licenses_in (sv : SpecVersion) (p : option (option (list LicenseChoice))) : option (option (list LicenseChoice)) :=
  in_place (license_choice_in sv) (if sv <? v1_1 then keep named_license p else p).

(** ** Components *)

Definition identity_in_1_5 (i : EvidenceIdentity) : EvidenceIdentity :=
  {| EvidenceIdentity_Field          := EvidenceIdentity_Field i;
     EvidenceIdentity_Confidence     := EvidenceIdentity_Confidence i;
     EvidenceIdentity_ConcludedValue := "";
     EvidenceIdentity_Methods        := EvidenceIdentity_Methods i;
     EvidenceIdentity_Tools          := EvidenceIdentity_Tools i |}.

(** Version 1.5 allows one identity only: the first of a list, or the single one. *)
Definition identity_choice_in_1_5 (i : EvidenceIdentityChoice) : option EvidenceIdentityChoice :=
  match EvidenceIdentityChoice_Identities i with
  | Some (Some (first :: _)) =>
      Some {| EvidenceIdentityChoice_Identity := Some (identity_in_1_5 first); EvidenceIdentityChoice_Identities := None |}
  | Some _ => None
  | None =>
      Some {| EvidenceIdentityChoice_Identity := if_present identity_in_1_5 (EvidenceIdentityChoice_Identity i);
              EvidenceIdentityChoice_Identities := None |}
  end.

Definition occurrence_in_1_5 (o : EvidenceOccurrence) : EvidenceOccurrence :=
  {| EvidenceOccurrence_BOMRef            := EvidenceOccurrence_BOMRef o;
     EvidenceOccurrence_Location          := EvidenceOccurrence_Location o;
     EvidenceOccurrence_Line              := None;
     EvidenceOccurrence_Offset            := None;
     EvidenceOccurrence_Symbol            := "";
     EvidenceOccurrence_AdditionalContext := "" |}.

(** Evidence licenses are not converted for 1.3 and 1.4 (a finding). *)
Definition evidence_in (sv : SpecVersion) (e : Evidence) : Evidence :=
  {| Evidence_Identity    := ptr_since v1_5 sv
       (if sv <? v1_6
        then match Evidence_Identity e with Some i => identity_choice_in_1_5 i | None => None end
        else Evidence_Identity e);
     Evidence_Occurrences := ptr_since v1_5 sv
       (if sv <? v1_6 then in_place occurrence_in_1_5 (Evidence_Occurrences e) else Evidence_Occurrences e);
     Evidence_Callstack   := ptr_since v1_5 sv (Evidence_Callstack e);
     Evidence_Licenses    := if sv <? v1_5 then Evidence_Licenses e else licenses_in sv (Evidence_Licenses e);
     Evidence_Copyright   := Evidence_Copyright e |}.

Definition considerations_in (sv : SpecVersion) (c : MLModelCardConsiderations) : MLModelCardConsiderations :=
  {| MLModelCardConsiderations_Users                       := MLModelCardConsiderations_Users c;
     MLModelCardConsiderations_UseCases                    := MLModelCardConsiderations_UseCases c;
     MLModelCardConsiderations_TechnicalLimitations        := MLModelCardConsiderations_TechnicalLimitations c;
     MLModelCardConsiderations_PerformanceTradeoffs        := MLModelCardConsiderations_PerformanceTradeoffs c;
     MLModelCardConsiderations_EthicalConsiderations       := MLModelCardConsiderations_EthicalConsiderations c;
     MLModelCardConsiderations_EnvironmentalConsiderations :=
       ptr_since v1_6 sv (MLModelCardConsiderations_EnvironmentalConsiderations c);
     MLModelCardConsiderations_FairnessAssessments         := MLModelCardConsiderations_FairnessAssessments c |}.

Definition model_card_in (sv : SpecVersion) (m : MLModelCard) : MLModelCard :=
  {| MLModelCard_BOMRef               := MLModelCard_BOMRef m;
     MLModelCard_ModelParameters      := MLModelCard_ModelParameters m;
     MLModelCard_QuantitativeAnalysis := MLModelCard_QuantitativeAnalysis m;
     MLModelCard_Considerations       := if_present (considerations_in sv) (MLModelCard_Considerations m) |}.

Definition algorithm_in (sv : SpecVersion) (a : CryptoAlgorithmProperties) : CryptoAlgorithmProperties :=
  {| CryptoAlgorithmProperties_Primitive                := open_enum_or "" crypto_primitives v1_6 sv (CryptoAlgorithmProperties_Primitive a);
     CryptoAlgorithmProperties_ParameterSetIdentifier   := CryptoAlgorithmProperties_ParameterSetIdentifier a;
     CryptoAlgorithmProperties_AlgorithmFamily          := str_since v1_7 sv (CryptoAlgorithmProperties_AlgorithmFamily a);
     CryptoAlgorithmProperties_Curve                    := CryptoAlgorithmProperties_Curve a;
     CryptoAlgorithmProperties_EllipticCurve            := str_since v1_7 sv (CryptoAlgorithmProperties_EllipticCurve a);
     CryptoAlgorithmProperties_ExecutionEnvironment     := CryptoAlgorithmProperties_ExecutionEnvironment a;
     CryptoAlgorithmProperties_ImplementationPlatform   := CryptoAlgorithmProperties_ImplementationPlatform a;
     CryptoAlgorithmProperties_CertificationLevel       := CryptoAlgorithmProperties_CertificationLevel a;
     CryptoAlgorithmProperties_Mode                     := CryptoAlgorithmProperties_Mode a;
     CryptoAlgorithmProperties_Padding                  := CryptoAlgorithmProperties_Padding a;
     CryptoAlgorithmProperties_CryptoFunctions          := CryptoAlgorithmProperties_CryptoFunctions a;
     CryptoAlgorithmProperties_ClassicalSecurityLevel   := CryptoAlgorithmProperties_ClassicalSecurityLevel a;
     CryptoAlgorithmProperties_NistQuantumSecurityLevel := CryptoAlgorithmProperties_NistQuantumSecurityLevel a |}.

Definition certificate_in (sv : SpecVersion) (c : CertificateProperties) : CertificateProperties :=
  {| CertificateProperties_SerialNumber               := str_since v1_7 sv (CertificateProperties_SerialNumber c);
     CertificateProperties_SubjectName                := CertificateProperties_SubjectName c;
     CertificateProperties_IssuerName                 := CertificateProperties_IssuerName c;
     CertificateProperties_NotValidBefore             := CertificateProperties_NotValidBefore c;
     CertificateProperties_NotValidAfter              := CertificateProperties_NotValidAfter c;
     CertificateProperties_SignatureAlgorithmRef      := CertificateProperties_SignatureAlgorithmRef c;
     CertificateProperties_SubjectPublicKeyRef        := CertificateProperties_SubjectPublicKeyRef c;
     CertificateProperties_CertificateFormat          := CertificateProperties_CertificateFormat c;
     CertificateProperties_CertificateExtension       := CertificateProperties_CertificateExtension c;
     CertificateProperties_CertificateFileExtension   := str_since v1_7 sv (CertificateProperties_CertificateFileExtension c);
     CertificateProperties_Fingerprint                := ptr_since v1_7 sv (CertificateProperties_Fingerprint c);
     CertificateProperties_CertificateState           := ptr_since v1_7 sv (CertificateProperties_CertificateState c);
     CertificateProperties_CertificateExtensions      := ptr_since v1_7 sv (CertificateProperties_CertificateExtensions c);
     CertificateProperties_RelatedCryptographicAssets := ptr_since v1_7 sv (CertificateProperties_RelatedCryptographicAssets c);
     CertificateProperties_CreationDate               := str_since v1_7 sv (CertificateProperties_CreationDate c);
     CertificateProperties_ActivationDate             := str_since v1_7 sv (CertificateProperties_ActivationDate c);
     CertificateProperties_DeactivationDate           := str_since v1_7 sv (CertificateProperties_DeactivationDate c);
     CertificateProperties_RevocationDate             := str_since v1_7 sv (CertificateProperties_RevocationDate c);
     CertificateProperties_DestructionDate            := str_since v1_7 sv (CertificateProperties_DestructionDate c) |}.

Definition material_in (sv : SpecVersion) (r : RelatedCryptoMaterialProperties) : RelatedCryptoMaterialProperties :=
  {| RelatedCryptoMaterialProperties_Type           := RelatedCryptoMaterialProperties_Type r;
     RelatedCryptoMaterialProperties_ID             := RelatedCryptoMaterialProperties_ID r;
     RelatedCryptoMaterialProperties_State          := RelatedCryptoMaterialProperties_State r;
     RelatedCryptoMaterialProperties_AlgorithmRef   := RelatedCryptoMaterialProperties_AlgorithmRef r;
     RelatedCryptoMaterialProperties_CreationDate   := RelatedCryptoMaterialProperties_CreationDate r;
     RelatedCryptoMaterialProperties_ActivationDate := RelatedCryptoMaterialProperties_ActivationDate r;
     RelatedCryptoMaterialProperties_UpdateDate     := RelatedCryptoMaterialProperties_UpdateDate r;
     RelatedCryptoMaterialProperties_ExpirationDate := RelatedCryptoMaterialProperties_ExpirationDate r;
     RelatedCryptoMaterialProperties_Value          := RelatedCryptoMaterialProperties_Value r;
     RelatedCryptoMaterialProperties_Size           := RelatedCryptoMaterialProperties_Size r;
     RelatedCryptoMaterialProperties_Format         := RelatedCryptoMaterialProperties_Format r;
     RelatedCryptoMaterialProperties_SecuredBy      := RelatedCryptoMaterialProperties_SecuredBy r;
     RelatedCryptoMaterialProperties_Fingerprint    := ptr_since v1_7 sv (RelatedCryptoMaterialProperties_Fingerprint r);
     RelatedCryptoMaterialProperties_RelatedCryptographicAssets :=
       ptr_since v1_7 sv (RelatedCryptoMaterialProperties_RelatedCryptographicAssets r) |}.

Definition cipher_suite_in (sv : SpecVersion) (c : CipherSuite) : CipherSuite :=
  {| CipherSuite_Name                := CipherSuite_Name c;
     CipherSuite_Algorithms          := CipherSuite_Algorithms c;
     CipherSuite_Identifiers         := CipherSuite_Identifiers c;
     CipherSuite_TLSGroups           := ptr_since v1_7 sv (CipherSuite_TLSGroups c);
     CipherSuite_TLSSignatureSchemes := ptr_since v1_7 sv (CipherSuite_TLSSignatureSchemes c) |}.

Definition protocol_in (sv : SpecVersion) (p : CryptoProtocolProperties) : CryptoProtocolProperties :=
  {| CryptoProtocolProperties_Type                       := open_enum_or "" crypto_protocol_types v1_6 sv (CryptoProtocolProperties_Type p);
     CryptoProtocolProperties_Version                    := CryptoProtocolProperties_Version p;
     CryptoProtocolProperties_CipherSuites               := in_place (cipher_suite_in sv) (CryptoProtocolProperties_CipherSuites p);
     CryptoProtocolProperties_IKEv2TransformTypes        := CryptoProtocolProperties_IKEv2TransformTypes p;
     CryptoProtocolProperties_CryptoRefArray             := CryptoProtocolProperties_CryptoRefArray p;
     CryptoProtocolProperties_RelatedCryptographicAssets := ptr_since v1_7 sv (CryptoProtocolProperties_RelatedCryptographicAssets p) |}.

Definition crypto_in (sv : SpecVersion) (c : CryptoProperties) : CryptoProperties :=
  {| CryptoProperties_AssetType             := CryptoProperties_AssetType c;
     CryptoProperties_AlgorithmProperties   := if_present (algorithm_in sv) (CryptoProperties_AlgorithmProperties c);
     CryptoProperties_CertificateProperties := if_present (certificate_in sv) (CryptoProperties_CertificateProperties c);
     CryptoProperties_RelatedCryptoMaterialProperties := if_present (material_in sv) (CryptoProperties_RelatedCryptoMaterialProperties c);
     CryptoProperties_ProtocolProperties    := if_present (protocol_in sv) (CryptoProperties_ProtocolProperties c);
     CryptoProperties_OID                   := CryptoProperties_OID c |}.

(** A pedigree, whose components are mapped by [f]. *)
Definition pedigree_in {C D} (sv : SpecVersion) (f : C -> D) (p : Pedigree_ C) : Pedigree_ D :=
  {| Pedigree_Ancestors   := in_place f (Pedigree_Ancestors p);
     Pedigree_Descendants := in_place f (Pedigree_Descendants p);
     Pedigree_Variants    := in_place f (Pedigree_Variants p);
     Pedigree_Commits     := Pedigree_Commits p;
     Pedigree_Patches     := ptr_since v1_2 sv (Pedigree_Patches p);
     Pedigree_Notes       := Pedigree_Notes p |}.

(** One component; [f] says what happens to the components inside it. Required in
    1.0: modified. Required before 1.4: version. *)
Definition component_in_ (f : Component -> Component) (sv : SpecVersion) (c : Component) : Component :=
  {| Component_BOMRef             := str_since v1_1 sv (Component_BOMRef c);
     Component_MIMEType           := str_since v1_2 sv (Component_MIMEType c);
     Component_Type               := enum_or "application" component_types sv (Component_Type c);
     Component_Supplier           := ptr_since v1_2 sv (Component_Supplier c);
     Component_Manufacturer       := ptr_since v1_6 sv (Component_Manufacturer c);
     Component_Author             := str_since v1_2 sv (Component_Author c);
     Component_Authors            := ptr_since v1_6 sv (Component_Authors c);
     Component_Publisher          := Component_Publisher c;
     Component_Group              := Component_Group c;
     Component_Name               := Component_Name c;
     Component_Version            := if (sv <? v1_4) && String.eqb (Component_Version c) "" then "0.0.0" else Component_Version c;
     Component_Description        := Component_Description c;
     Component_Scope              := enum_or "" scopes sv (Component_Scope c);
     Component_Hashes             := hashes_in sv (Component_Hashes c);
     Component_Licenses           := licenses_in sv (Component_Licenses c);
     Component_Copyright          := Component_Copyright c;
     Component_CPE                := Component_CPE c;
     Component_PackageURL         := Component_PackageURL c;
     Component_OmniborID          := ptr_since v1_6 sv (Component_OmniborID c);
     Component_SWHID              := ptr_since v1_6 sv (Component_SWHID c);
     Component_SWID               := ptr_since v1_2 sv (Component_SWID c);
     Component_Modified           := match Component_Modified c with
                                     | None => if sv <? v1_1 then Some false else None
                                     | Some m => Some m
                                     end;
     Component_Pedigree           := ptr_since v1_1 sv (if_present (pedigree_in sv f) (Component_Pedigree c));
     Component_ExternalReferences := ptr_since v1_1 sv (in_place (extref_in sv) (Component_ExternalReferences c));
     Component_Properties         := ptr_since v1_3 sv (Component_Properties c);
     Component_Components         := in_place f (Component_Components c);
     Component_Evidence           := ptr_since v1_3 sv (if_present (evidence_in sv) (Component_Evidence c));
     Component_ReleaseNotes       := ptr_since v1_4 sv (Component_ReleaseNotes c);
     Component_ModelCard          := ptr_since v1_5 sv (if_present (model_card_in sv) (Component_ModelCard c));
     Component_Data               := ptr_since v1_5 sv (Component_Data c);
     Component_CryptoProperties   := ptr_since v1_6 sv (if_present (crypto_in sv) (Component_CryptoProperties c));
     Component_Tags               := ptr_since v1_6 sv (Component_Tags c);
     Component_IsExternal         := ptr_since v1_7 sv (Component_IsExternal c);
     Component_PatentAssertions   := ptr_since v1_7 sv (Component_PatentAssertions c);
     Component_VersionRange       := str_since v1_7 sv (Component_VersionRange c);
     Component_Signature          := Component_Signature c |}.

(** The whole tree of components, at any depth. *)
Fixpoint component_in (sv : SpecVersion) (c : Component) {struct c} : Component :=
  component_in_ (component_in sv) sv c.

(** ** Services. Service.Licenses and Service.Tags are never touched (findings). *)

Definition service_in_ (f : Service -> Service) (sv : SpecVersion) (s : Service) : Service :=
  {| Service_BOMRef               := Service_BOMRef s;
     Service_Provider             := if_present (entity_in sv) (Service_Provider s);
     Service_Group                := Service_Group s;
     Service_Name                 := Service_Name s;
     Service_Version              := Service_Version s;
     Service_Description          := Service_Description s;
     Service_Endpoints            := Service_Endpoints s;
     Service_Authenticated        := Service_Authenticated s;
     Service_CrossesTrustBoundary := Service_CrossesTrustBoundary s;
     Service_Data                 := in_place (data_in sv) (Service_Data s);
     Service_Licenses             := Service_Licenses s;
     Service_ExternalReferences   := in_place (extref_in sv) (Service_ExternalReferences s);
     Service_Properties           := ptr_since v1_3 sv (Service_Properties s);
     Service_Services             := in_place f (Service_Services s);
     Service_ReleaseNotes         := ptr_since v1_4 sv (Service_ReleaseNotes s);
     Service_Tags                 := Service_Tags s;
     Service_TrustZone            := str_since v1_5 sv (Service_TrustZone s);
     Service_PatentAssertions     := ptr_since v1_7 sv (Service_PatentAssertions s);
     Service_Signature            := Service_Signature s |}.

Fixpoint service_in (sv : SpecVersion) (s : Service) {struct s} : Service :=
  service_in_ (service_in sv) sv s.

(** ** Tools *)

Definition tool_in (sv : SpecVersion) (t : Tool) : Tool :=
  {| Tool_Vendor             := Tool_Vendor t;
     Tool_Name               := Tool_Name t;
     Tool_Version            := Tool_Version t;
     Tool_Hashes             := hashes_in sv (Tool_Hashes t);
     Tool_ExternalReferences := ptr_since v1_4 sv (in_place (extref_in sv) (Tool_ExternalReferences t)) |}.

(** A component or service used as a tool, as a pre-1.5 tool. The vendor is the
    supplier if there is one, otherwise the author; for a service the provider. *)
Definition component_as_tool (c : Component) : Tool :=
  {| Tool_Vendor := match Component_Supplier c with
                    | Some s => OrganizationalEntity_Name s
                    | None => Component_Author c
                    end;
     Tool_Name := Component_Name c;
     Tool_Version := Component_Version c;
     Tool_Hashes := Component_Hashes c;
     Tool_ExternalReferences := Component_ExternalReferences c |}.

Definition service_as_tool (s : Service) : Tool :=
  {| Tool_Vendor := match Service_Provider s with
                    | Some p => OrganizationalEntity_Name p
                    | None => ""
                    end;
     Tool_Name := Service_Name s;
     Tool_Version := Service_Version s;
     Tool_Hashes := None;
     Tool_ExternalReferences := Service_ExternalReferences s |}.

(** All elements of a list behind pointers. *)
Definition members {A} (p : option (option (list A))) : list A :=
  match p with Some (Some l) => l | _ => [] end.

(** Before 1.5 every tool, component and service is a tool, in this order. *)
Definition all_tools (t : ToolsChoice) : list Tool :=
  (members (ToolsChoice_Tools t) ++
   map component_as_tool (members (ToolsChoice_Components t)) ++
   map service_as_tool (members (ToolsChoice_Services t)))%list.

(** From 1.5 on, of a service used as a tool only the provider is converted, and a
    component used as a tool is not converted (a finding). *)
Definition tool_service_in (sv : SpecVersion) (s : Service) : Service :=
  set_Service_Provider (if_present (entity_in sv) (Service_Provider s)) s.

Definition tools_in (sv : SpecVersion) (t : ToolsChoice) : ToolsChoice :=
  if sv <? v1_5 then
    {| ToolsChoice_Tools      := match all_tools t with
                                 | [] => ToolsChoice_Tools t    (* absent, or present and empty *)
                                 | l => Some (Some (map (tool_in sv) l))
                                 end;
       ToolsChoice_Components := None;
       ToolsChoice_Services   := None |}
  else
    {| ToolsChoice_Tools      := in_place (tool_in sv) (ToolsChoice_Tools t);
       ToolsChoice_Components := ToolsChoice_Components t;
       ToolsChoice_Services   := in_place (tool_service_in sv) (ToolsChoice_Services t) |}.

(** ** Vulnerabilities, compositions, annotations *)

Definition rating_in (sv : SpecVersion) (r : VulnerabilityRating) : VulnerabilityRating :=
  {| VulnerabilityRating_Source        := VulnerabilityRating_Source r;
     VulnerabilityRating_Score         := VulnerabilityRating_Score r;
     VulnerabilityRating_Severity      := VulnerabilityRating_Severity r;
     VulnerabilityRating_Method        := enum_or "other" scoring_methods sv (VulnerabilityRating_Method r);
     VulnerabilityRating_Vector        := VulnerabilityRating_Vector r;
     VulnerabilityRating_Justification := VulnerabilityRating_Justification r |}.

Definition credits_in (sv : SpecVersion) (c : Credits) : Credits :=
  {| Credits_Organizations := in_place (entity_in sv) (Credits_Organizations c);
     Credits_Individuals   := in_place (contact_in sv) (Credits_Individuals c) |}.

Definition analysis_in (sv : SpecVersion) (a : VulnerabilityAnalysis) : VulnerabilityAnalysis :=
  {| VulnerabilityAnalysis_State         := VulnerabilityAnalysis_State a;
     VulnerabilityAnalysis_Justification := VulnerabilityAnalysis_Justification a;
     VulnerabilityAnalysis_Response      := VulnerabilityAnalysis_Response a;
     VulnerabilityAnalysis_Detail        := VulnerabilityAnalysis_Detail a;
     VulnerabilityAnalysis_FirstIssued   := str_since v1_5 sv (VulnerabilityAnalysis_FirstIssued a);
     VulnerabilityAnalysis_LastUpdated   := str_since v1_5 sv (VulnerabilityAnalysis_LastUpdated a) |}.

Definition vulnerability_in (sv : SpecVersion) (v : Vulnerability) : Vulnerability :=
  {| Vulnerability_BOMRef         := Vulnerability_BOMRef v;
     Vulnerability_ID             := Vulnerability_ID v;
     Vulnerability_Source         := Vulnerability_Source v;
     Vulnerability_References     := Vulnerability_References v;
     Vulnerability_Ratings        := in_place (rating_in sv) (Vulnerability_Ratings v);
     Vulnerability_CWEs           := Vulnerability_CWEs v;
     Vulnerability_Description    := Vulnerability_Description v;
     Vulnerability_Detail         := Vulnerability_Detail v;
     Vulnerability_Recommendation := Vulnerability_Recommendation v;
     Vulnerability_Workaround     := str_since v1_5 sv (Vulnerability_Workaround v);
     Vulnerability_ProofOfConcept := ptr_since v1_5 sv (Vulnerability_ProofOfConcept v);
     Vulnerability_Advisories     := Vulnerability_Advisories v;
     Vulnerability_Created        := Vulnerability_Created v;
     Vulnerability_Published      := Vulnerability_Published v;
     Vulnerability_Updated        := Vulnerability_Updated v;
     Vulnerability_Rejected       := str_since v1_5 sv (Vulnerability_Rejected v);
     Vulnerability_Credits        := if_present (credits_in sv) (Vulnerability_Credits v);
     Vulnerability_Tools          := if_present (tools_in sv) (Vulnerability_Tools v);
     Vulnerability_Analysis       := if_present (analysis_in sv) (Vulnerability_Analysis v);
     Vulnerability_Affects        := Vulnerability_Affects v;
     Vulnerability_Properties     := Vulnerability_Properties v |}.

Definition composition_in (sv : SpecVersion) (c : Composition) : Composition :=
  {| Composition_BOMRef          := str_since v1_5 sv (Composition_BOMRef c);
     Composition_Aggregate       := open_enum_or "unknown" composition_aggregates v1_3 sv (Composition_Aggregate c);
     Composition_Assemblies      := Composition_Assemblies c;
     Composition_Dependencies    := Composition_Dependencies c;
     Composition_Vulnerabilities := ptr_since v1_5 sv (Composition_Vulnerabilities c);
     Composition_Signature       := Composition_Signature c |}.

(** Annotators are converted for 1.5 only (a finding: the patent assertions of an
    annotating service survive in 1.6), and the annotating component and individual
    never. *)
Definition annotator_in (sv : SpecVersion) (a : Annotator) : Annotator :=
  if sv <? v1_6 then
    {| Annotator_Organization := if_present (entity_in sv) (Annotator_Organization a);
       Annotator_Individual   := Annotator_Individual a;
       Annotator_Component    := Annotator_Component a;
       Annotator_Service      := if_present (service_in sv) (Annotator_Service a) |}
  else a.

Definition annotation_in (sv : SpecVersion) (a : Annotation) : Annotation :=
  {| Annotation_BOMRef    := Annotation_BOMRef a;
     Annotation_Subjects  := Annotation_Subjects a;
     Annotation_Annotator := if_present (annotator_in sv) (Annotation_Annotator a);
     Annotation_Timestamp := Annotation_Timestamp a;
     Annotation_Text      := Annotation_Text a;
     Annotation_Signature := Annotation_Signature a |}.

(** ** The document *)

Definition metadata_in (sv : SpecVersion) (m : Metadata) : Metadata :=
  {| Metadata_Timestamp    := Metadata_Timestamp m;
     Metadata_Lifecycles   := ptr_since v1_5 sv (Metadata_Lifecycles m);
     Metadata_Tools        := if_present (tools_in sv) (Metadata_Tools m);
     Metadata_Authors      := in_place (contact_in sv) (Metadata_Authors m);
     Metadata_Component    := if_present (component_in sv) (Metadata_Component m);
     Metadata_Manufacture  := if_present (entity_in sv) (Metadata_Manufacture m);
     Metadata_Manufacturer := ptr_since v1_6 sv (Metadata_Manufacturer m);
     Metadata_Supplier     := if_present (entity_in sv) (Metadata_Supplier m);
     Metadata_Licenses     := ptr_since v1_3 sv (licenses_in sv (Metadata_Licenses m));
     Metadata_Properties   := ptr_since v1_3 sv (Metadata_Properties m);
     Metadata_DistributionConstraints := ptr_since v1_7 sv (Metadata_DistributionConstraints m) |}.

Definition dependency_in (sv : SpecVersion) (d : Dependency) : Dependency :=
  {| Dependency_Ref          := Dependency_Ref d;
     Dependency_Dependencies := Dependency_Dependencies d;
     Dependency_Provides     := ptr_since v1_6 sv (Dependency_Provides d) |}.

Definition definitions_in (sv : SpecVersion) (d : Definitions) : Definitions :=
  {| Definitions_Standards := Definitions_Standards d;
     Definitions_Patents   := ptr_since v1_7 sv (Definitions_Patents d) |}.

Definition is_version (sv : SpecVersion) : bool := (v1_0 <=? sv) && (sv <=? v1_7).

Definition version_text (sv : SpecVersion) : string :=
  nth (Z.to_nat sv) [""; "1.0"; "1.1"; "1.2"; "1.3"; "1.4"; "1.5"; "1.6"; "1.7"] "".

(** The XML namespace and the JSON schema URL of a version; JSON starts with 1.2. *)
Definition namespace_of (sv : SpecVersion) : string :=
  if is_version sv then "http://cyclonedx.org/schema/bom/" ++ version_text sv else "".
Definition schema_of (sv : SpecVersion) : string :=
  if is_version sv && (v1_2 <=? sv) then "http://cyclonedx.org/schema/bom-" ++ version_text sv ++ ".schema.json" else "".

Definition bom_in (sv : SpecVersion) (b : BOM) : BOM :=
  {| BOM_XMLName            := BOM_XMLName b;
     BOM_XMLNS              := namespace_of sv;
     BOM_JSONSchema         := schema_of sv;
     BOM_BOMFormat          := BOM_BOMFormat b;
     BOM_SpecVersion        := sv;
     BOM_SerialNumber       := str_since v1_1 sv (BOM_SerialNumber b);
     BOM_Version            := BOM_Version b;
     BOM_Metadata           := ptr_since v1_2 sv (if_present (metadata_in sv) (BOM_Metadata b));
     BOM_Components         := in_place (component_in sv) (BOM_Components b);
     BOM_Services           := ptr_since v1_2 sv (in_place (service_in sv) (BOM_Services b));
     BOM_ExternalReferences := ptr_since v1_1 sv (in_place (extref_in sv) (BOM_ExternalReferences b));
     BOM_Dependencies       := ptr_since v1_2 sv (in_place (dependency_in sv) (BOM_Dependencies b));
     BOM_Compositions       := ptr_since v1_3 sv (in_place (composition_in sv) (BOM_Compositions b));
     BOM_Properties         := BOM_Properties b;
     BOM_Vulnerabilities    := ptr_since v1_4 sv (in_place (vulnerability_in sv) (BOM_Vulnerabilities b));
     BOM_Annotations        := ptr_since v1_5 sv (in_place (annotation_in sv) (BOM_Annotations b));
     BOM_Formulation        := ptr_since v1_5 sv (BOM_Formulation b);
     BOM_Declarations       := ptr_since v1_6 sv (BOM_Declarations b);
     BOM_Definitions        := ptr_since v1_6 sv (if_present (definitions_in sv) (BOM_Definitions b));
     BOM_Citations          := ptr_since v1_7 sv (BOM_Citations b);
     BOM_Signature          := BOM_Signature b |}.
