(** GENERATED by tools/gen_within.py. Which fields and which enumeration values a
    specification version defines, according to the official schemas in /repo/schema
    (JSON Schema 1.2 to 1.7 and XSD 1.0 to 1.7): a field belongs to the oldest version
    in which one of the two formats has it. [within_T sv x]: nothing in [x], at any
    depth, is newer than [sv]. Independent of the model. The version markers of a BOM
    are left out. Enumerations all of whose values are as old as their fields need no
    clause. *)
From Verif Require Import Base Types ConvertSpec.
Local Open Scope string_scope.
Local Open Scope Z_scope.

(** In no version (no schema defines the field). *)
Definition never : SpecVersion := 1000.

(** The field was introduced in [v]: before, it has its zero value. *)
Definition introduced {A} (v sv : SpecVersion) (zero x : A) : Prop := sv < v -> x = zero.

(** The enumeration value was not introduced after [sv]. *)
Definition not_newer (e : list (string * SpecVersion)) (sv : SpecVersion) (s : string) : Prop :=
  forall v, In (s, v) e -> v <= sv.

Definition inside {A} (P : A -> Prop) (o : option A) : Prop := match o with Some x => P x | None => True end.

Definition all_of {A} (P : A -> Prop) : list A -> Prop :=
  fix all_of l := match l with [] => True | x :: l' => P x /\ all_of l' end.
Definition all_in {A} (P : A -> Prop) (p : option (option (list A))) : Prop :=
  match p with Some (Some l) => all_of P l | _ => True end.

Definition ComponentType_values : list (string * SpecVersion) :=
  [ ("application", v1_0); ("framework", v1_0); ("library", v1_0); ("container", v1_2); ("operating-system", v1_0); ("device", v1_0);
    ("firmware", v1_2); ("file", v1_1); ("platform", v1_5); ("device-driver", v1_5); ("machine-learning-model", v1_5); ("data", v1_5);
    ("cryptographic-asset", v1_6) ].
Definition CompositionAggregate_values : list (string * SpecVersion) :=
  [ ("complete", v1_3); ("incomplete", v1_3); ("incomplete_first_party_only", v1_3); ("incomplete_third_party_only", v1_3); ("unknown", v1_3);
    ("not_specified", v1_3); ("incomplete_first_party_proprietary_only", v1_5); ("incomplete_first_party_opensource_only", v1_5);
    ("incomplete_third_party_proprietary_only", v1_5); ("incomplete_third_party_opensource_only", v1_5) ].
Definition CryptoPrimitive_values : list (string * SpecVersion) :=
  [ ("drbg", v1_6); ("mac", v1_6); ("block-cipher", v1_6); ("stream-cipher", v1_6); ("signature", v1_6); ("hash", v1_6); ("pke", v1_6); ("xof", v1_6);
    ("kdf", v1_6); ("key-agree", v1_6); ("kem", v1_6); ("ae", v1_6); ("combiner", v1_6); ("other", v1_6); ("unknown", v1_6); ("key-wrap", v1_7) ].
Definition CryptoProtocolType_values : list (string * SpecVersion) :=
  [ ("tls", v1_6); ("ssh", v1_6); ("ipsec", v1_6); ("ike", v1_6); ("sstp", v1_6); ("wpa", v1_6); ("other", v1_6); ("unknown", v1_6); ("dtls", v1_7);
    ("quic", v1_7); ("eap-aka", v1_7); ("eap-aka-prime", v1_7); ("prins", v1_7); ("5g-aka", v1_7) ].
Definition EvidenceIdentityFieldType_values : list (string * SpecVersion) :=
  [ ("group", v1_5); ("name", v1_5); ("version", v1_5); ("purl", v1_5); ("cpe", v1_5); ("swid", v1_5); ("hash", v1_5); ("omniborId", v1_6);
    ("swhid", v1_6) ].
Definition ExternalReferenceType_values : list (string * SpecVersion) :=
  [ ("vcs", v1_1); ("issue-tracker", v1_1); ("website", v1_1); ("advisories", v1_1); ("bom", v1_1); ("mailing-list", v1_1); ("social", v1_1);
    ("chat", v1_1); ("documentation", v1_1); ("support", v1_1); ("distribution", v1_1); ("license", v1_1); ("build-meta", v1_1);
    ("build-system", v1_1); ("other", v1_1); ("release-notes", v1_4); ("distribution-intake", v1_5); ("security-contact", v1_5); ("model-card", v1_5);
    ("log", v1_5); ("configuration", v1_5); ("evidence", v1_5); ("formulation", v1_5); ("attestation", v1_5); ("threat-model", v1_5);
    ("adversary-model", v1_5); ("risk-assessment", v1_5); ("vulnerability-assertion", v1_5); ("exploitability-statement", v1_5);
    ("pentest-report", v1_5); ("static-analysis-report", v1_5); ("dynamic-analysis-report", v1_5); ("runtime-analysis-report", v1_5);
    ("component-analysis-report", v1_5); ("maturity-report", v1_5); ("certification-report", v1_5); ("codified-infrastructure", v1_5);
    ("quality-metrics", v1_5); ("poam", v1_5); ("source-distribution", v1_6); ("electronic-signature", v1_6); ("digital-signature", v1_6);
    ("rfc-9116", v1_6); ("patent", v1_7); ("patent-family", v1_7); ("patent-assertion", v1_7); ("citation", v1_7) ].
Definition HashAlgorithm_values : list (string * SpecVersion) :=
  [ ("MD5", v1_0); ("SHA-1", v1_0); ("SHA-256", v1_0); ("SHA-384", v1_0); ("SHA-512", v1_0); ("SHA3-256", v1_0); ("SHA3-384", v1_2);
    ("SHA3-512", v1_0); ("BLAKE2b-256", v1_2); ("BLAKE2b-384", v1_2); ("BLAKE2b-512", v1_2); ("BLAKE3", v1_2); ("Streebog-256", v1_7);
    ("Streebog-512", v1_7) ].
Definition Scope_values : list (string * SpecVersion) :=
  [ ("required", v1_0); ("optional", v1_0); ("excluded", v1_1) ].
Definition ScoringMethod_values : list (string * SpecVersion) :=
  [ ("CVSSv2", v1_4); ("CVSSv3", v1_4); ("CVSSv31", v1_4); ("OWASP", v1_4); ("other", v1_4); ("CVSSv4", v1_5); ("SSVC", v1_5) ].

(** /repo/cyclonedx.go:1277-1280 *)
Definition within_Property (sv : SpecVersion) (x : Property) : Prop :=
  introduced v1_3 sv "" (Property_Name x) /\
  introduced v1_3 sv "" (Property_Value x).
(** /repo/cyclonedx.go:657-660 *)
Definition within_EnvironmentVariableChoice (sv : SpecVersion) (x : EnvironmentVariableChoice) : Prop :=
  introduced v1_5 sv None (EnvironmentVariableChoice_Property x) /\
  inside (within_Property sv) (EnvironmentVariableChoice_Property x) /\
  introduced v1_5 sv "" (EnvironmentVariableChoice_Value x).
(** /repo/cyclonedx.go:73-77 *)
Definition within_AttachedText (sv : SpecVersion) (x : AttachedText) : Prop :=
  introduced v1_1 sv "" (AttachedText_Content x) /\
  introduced v1_1 sv "" (AttachedText_ContentType x) /\
  introduced v1_1 sv "" (AttachedText_Encoding x).
(** /repo/cyclonedx.go:1261-1269 *)
Definition within_PostalAddress (sv : SpecVersion) (x : PostalAddress) : Prop :=
  introduced v1_6 sv "" (PostalAddress_BOMRef x) /\
  introduced v1_6 sv "" (PostalAddress_Country x) /\
  introduced v1_6 sv "" (PostalAddress_Region x) /\
  introduced v1_6 sv "" (PostalAddress_Locality x) /\
  introduced v1_6 sv "" (PostalAddress_PostOfficeBoxNumber x) /\
  introduced v1_6 sv "" (PostalAddress_PostalCode x) /\
  introduced v1_6 sv "" (PostalAddress_StreetAddress x).
(** /repo/cyclonedx.go:1211-1216 *)
Definition within_OrganizationalContact (sv : SpecVersion) (x : OrganizationalContact) : Prop :=
  introduced v1_5 sv "" (OrganizationalContact_BOMRef x) /\
  introduced v1_2 sv "" (OrganizationalContact_Name x) /\
  introduced v1_2 sv "" (OrganizationalContact_Email x) /\
  introduced v1_2 sv "" (OrganizationalContact_Phone x).
(** /repo/cyclonedx.go:1218-1224 *)
Definition within_OrganizationalEntity (sv : SpecVersion) (x : OrganizationalEntity) : Prop :=
  introduced v1_5 sv "" (OrganizationalEntity_BOMRef x) /\
  introduced v1_2 sv "" (OrganizationalEntity_Name x) /\
  introduced v1_6 sv None (OrganizationalEntity_Address x) /\
  inside (within_PostalAddress sv) (OrganizationalEntity_Address x) /\
  introduced v1_2 sv None (OrganizationalEntity_URL x) /\
  introduced v1_2 sv None (OrganizationalEntity_Contact x) /\
  all_in (within_OrganizationalContact sv) (OrganizationalEntity_Contact x).
(** /repo/cyclonedx.go:1226-1229 *)
Definition within_OrganizationalEntityOrContact (sv : SpecVersion) (x : OrganizationalEntityOrContact) : Prop :=
  introduced v1_5 sv None (OrganizationalEntityOrContact_Organization x) /\
  inside (within_OrganizationalEntity sv) (OrganizationalEntityOrContact_Organization x) /\
  introduced v1_5 sv None (OrganizationalEntityOrContact_Individual x) /\
  inside (within_OrganizationalContact sv) (OrganizationalEntityOrContact_Individual x).
(** /repo/cyclonedx.go:995-1004 *)
Definition within_Licensing (sv : SpecVersion) (x : Licensing) : Prop :=
  introduced v1_5 sv None (Licensing_AltIDs x) /\
  introduced v1_5 sv None (Licensing_Licensor x) /\
  inside (within_OrganizationalEntityOrContact sv) (Licensing_Licensor x) /\
  introduced v1_5 sv None (Licensing_Licensee x) /\
  inside (within_OrganizationalEntityOrContact sv) (Licensing_Licensee x) /\
  introduced v1_5 sv None (Licensing_Purchaser x) /\
  inside (within_OrganizationalEntityOrContact sv) (Licensing_Purchaser x) /\
  introduced v1_5 sv "" (Licensing_PurchaseOrder x) /\
  introduced v1_5 sv None (Licensing_LicenseTypes x) /\
  introduced v1_5 sv "" (Licensing_LastRenewal x) /\
  introduced v1_5 sv "" (Licensing_Expiration x).
(** /repo/cyclonedx.go:936-945 *)
Definition within_License (sv : SpecVersion) (x : License) : Prop :=
  introduced v1_5 sv "" (License_BOMRef x) /\
  introduced v1_6 sv "" (License_Acknowledgement x) /\
  introduced v1_1 sv None (License_Text x) /\
  inside (within_AttachedText sv) (License_Text x) /\
  introduced v1_1 sv "" (License_URL x) /\
  introduced v1_5 sv None (License_Licensing x) /\
  inside (within_Licensing sv) (License_Licensing x) /\
  introduced v1_5 sv None (License_Properties x) /\
  all_in (within_Property sv) (License_Properties x).
(** /repo/cyclonedx.go:967-972 *)
Definition within_LicenseExpressionDetail (sv : SpecVersion) (x : LicenseExpressionDetail) : Prop :=
  introduced v1_7 sv "" (LicenseExpressionDetail_LicenseIdentifier x) /\
  introduced v1_7 sv "" (LicenseExpressionDetail_BOMRef x) /\
  introduced v1_7 sv None (LicenseExpressionDetail_Text x) /\
  inside (within_AttachedText sv) (LicenseExpressionDetail_Text x) /\
  introduced v1_7 sv "" (LicenseExpressionDetail_URL x).
(** /repo/cyclonedx.go:956-964 *)
Definition within_LicenseChoice (sv : SpecVersion) (x : LicenseChoice) : Prop :=
  inside (within_License sv) (LicenseChoice_License x) /\
  introduced v1_1 sv "" (LicenseChoice_Expression x) /\
  introduced v1_7 sv None (LicenseChoice_ExpressionDetails x) /\
  all_in (within_LicenseExpressionDetail sv) (LicenseChoice_ExpressionDetails x) /\
  introduced v1_6 sv None (LicenseChoice_Acknowledgement x) /\
  introduced v1_6 sv "" (LicenseChoice_BOMRef x) /\
  introduced v1_7 sv None (LicenseChoice_Licensing x) /\
  inside (within_Licensing sv) (LicenseChoice_Licensing x) /\
  introduced v1_7 sv None (LicenseChoice_Properties x) /\
  all_in (within_Property sv) (LicenseChoice_Properties x).
(** /repo/cyclonedx.go:35-38 *)
Definition within_Advisory (sv : SpecVersion) (x : Advisory) : Prop :=
  introduced v1_4 sv "" (Advisory_Title x) /\
  introduced v1_4 sv "" (Advisory_URL x).
(** /repo/cyclonedx.go:40-44 *)
Definition within_AffectedVersions (sv : SpecVersion) (x : AffectedVersions) : Prop :=
  introduced v1_4 sv "" (AffectedVersions_Version x) /\
  introduced v1_4 sv "" (AffectedVersions_Range x) /\
  introduced v1_4 sv "" (AffectedVersions_Status x).
(** /repo/cyclonedx.go:46-49 *)
Definition within_Affects (sv : SpecVersion) (x : Affects) : Prop :=
  introduced v1_4 sv "" (Affects_Ref x) /\
  introduced v1_4 sv None (Affects_Range x) /\
  all_in (within_AffectedVersions sv) (Affects_Range x).
(** /repo/cyclonedx.go:808-811 *)
Definition within_Hash (sv : SpecVersion) (x : Hash) : Prop :=
  not_newer HashAlgorithm_values sv (Hash_Algorithm x).
(** /repo/cyclonedx.go:1449-1457 *)
Definition within_SWID (sv : SpecVersion) (x : SWID) : Prop :=
  introduced v1_2 sv None (SWID_Text x) /\
  inside (within_AttachedText sv) (SWID_Text x) /\
  introduced v1_2 sv "" (SWID_URL x) /\
  introduced v1_2 sv "" (SWID_TagID x) /\
  introduced v1_2 sv "" (SWID_Name x) /\
  introduced v1_2 sv "" (SWID_Version x) /\
  introduced v1_2 sv None (SWID_TagVersion x) /\
  introduced v1_2 sv None (SWID_Patch x).
(** /repo/cyclonedx.go:832-836 *)
Definition within_IdentifiableAction (sv : SpecVersion) (x : IdentifiableAction) : Prop :=
  introduced v1_1 sv "" (IdentifiableAction_Timestamp x) /\
  introduced v1_1 sv "" (IdentifiableAction_Name x) /\
  introduced v1_1 sv "" (IdentifiableAction_Email x).
(** /repo/cyclonedx.go:231-237 *)
Definition within_Commit (sv : SpecVersion) (x : Commit) : Prop :=
  introduced v1_1 sv "" (Commit_UID x) /\
  introduced v1_1 sv "" (Commit_URL x) /\
  introduced v1_1 sv None (Commit_Author x) /\
  inside (within_IdentifiableAction sv) (Commit_Author x) /\
  introduced v1_1 sv None (Commit_Committer x) /\
  inside (within_IdentifiableAction sv) (Commit_Committer x) /\
  introduced v1_1 sv "" (Commit_Message x).
(** /repo/cyclonedx.go:650-653 *)
Definition within_Diff (sv : SpecVersion) (x : Diff) : Prop :=
  introduced v1_2 sv None (Diff_Text x) /\
  inside (within_AttachedText sv) (Diff_Text x) /\
  introduced v1_2 sv "" (Diff_URL x).
(** /repo/cyclonedx.go:1398-1401 *)
Definition within_Source (sv : SpecVersion) (x : Source) : Prop :=
  introduced v1_2 sv "" (Source_Name x) /\
  introduced v1_2 sv "" (Source_URL x).
(** /repo/cyclonedx.go:892-899 *)
Definition within_Issue (sv : SpecVersion) (x : Issue) : Prop :=
  introduced v1_2 sv "" (Issue_ID x) /\
  introduced v1_2 sv "" (Issue_Name x) /\
  introduced v1_2 sv "" (Issue_Description x) /\
  introduced v1_2 sv None (Issue_Source x) /\
  inside (within_Source sv) (Issue_Source x) /\
  introduced v1_2 sv None (Issue_References x) /\
  introduced v1_2 sv "" (Issue_Type x).
(** /repo/cyclonedx.go:1237-1241 *)
Definition within_Patch (sv : SpecVersion) (x : Patch) : Prop :=
  introduced v1_2 sv None (Patch_Diff x) /\
  inside (within_Diff sv) (Patch_Diff x) /\
  introduced v1_2 sv None (Patch_Resolves x) /\
  all_in (within_Issue sv) (Patch_Resolves x) /\
  introduced v1_2 sv "" (Patch_Type x).
(** /repo/cyclonedx.go:1252-1259 *)
Definition within_Pedigree {C} (P : C -> Prop) (sv : SpecVersion) (x : Pedigree_ C) : Prop :=
  introduced v1_1 sv None (Pedigree_Ancestors x) /\
  all_in P (Pedigree_Ancestors x) /\
  introduced v1_1 sv None (Pedigree_Descendants x) /\
  all_in P (Pedigree_Descendants x) /\
  introduced v1_1 sv None (Pedigree_Variants x) /\
  all_in P (Pedigree_Variants x) /\
  introduced v1_1 sv None (Pedigree_Commits x) /\
  all_in (within_Commit sv) (Pedigree_Commits x) /\
  introduced v1_2 sv None (Pedigree_Patches x) /\
  all_in (within_Patch sv) (Pedigree_Patches x) /\
  introduced v1_1 sv "" (Pedigree_Notes x).
(** /repo/cyclonedx.go:740-746 *)
Definition within_ExternalReference (sv : SpecVersion) (x : ExternalReference) : Prop :=
  introduced v1_1 sv "" (ExternalReference_URL x) /\
  introduced v1_1 sv "" (ExternalReference_Comment x) /\
  introduced v1_3 sv None (ExternalReference_Hashes x) /\
  all_in (within_Hash sv) (ExternalReference_Hashes x) /\
  introduced v1_1 sv "" (ExternalReference_Type x) /\
  not_newer ExternalReferenceType_values sv (ExternalReference_Type x) /\
  introduced v1_7 sv None (ExternalReference_Properties x) /\
  all_in (within_Property sv) (ExternalReference_Properties x).
(** /repo/cyclonedx.go:710-714 *)
Definition within_EvidenceIdentityMethod (sv : SpecVersion) (x : EvidenceIdentityMethod) : Prop :=
  introduced v1_5 sv "" (EvidenceIdentityMethod_Technique x) /\
  introduced v1_5 sv None (EvidenceIdentityMethod_Confidence x) /\
  introduced v1_5 sv "" (EvidenceIdentityMethod_Value x).
(** /repo/cyclonedx.go:688-694 *)
Definition within_EvidenceIdentity (sv : SpecVersion) (x : EvidenceIdentity) : Prop :=
  introduced v1_5 sv "" (EvidenceIdentity_Field x) /\
  not_newer EvidenceIdentityFieldType_values sv (EvidenceIdentity_Field x) /\
  introduced v1_5 sv None (EvidenceIdentity_Confidence x) /\
  introduced v1_6 sv "" (EvidenceIdentity_ConcludedValue x) /\
  introduced v1_5 sv None (EvidenceIdentity_Methods x) /\
  all_in (within_EvidenceIdentityMethod sv) (EvidenceIdentity_Methods x) /\
  introduced v1_5 sv None (EvidenceIdentity_Tools x).
(** /repo/cyclonedx.go:683-686 *)
Definition within_EvidenceIdentityChoice (sv : SpecVersion) (x : EvidenceIdentityChoice) : Prop :=
  introduced v1_5 sv None (EvidenceIdentityChoice_Identity x) /\
  inside (within_EvidenceIdentity sv) (EvidenceIdentityChoice_Identity x) /\
  introduced v1_6 sv None (EvidenceIdentityChoice_Identities x) /\
  all_in (within_EvidenceIdentity sv) (EvidenceIdentityChoice_Identities x).
(** /repo/cyclonedx.go:731-738 *)
Definition within_EvidenceOccurrence (sv : SpecVersion) (x : EvidenceOccurrence) : Prop :=
  introduced v1_5 sv "" (EvidenceOccurrence_BOMRef x) /\
  introduced v1_5 sv "" (EvidenceOccurrence_Location x) /\
  introduced v1_6 sv None (EvidenceOccurrence_Line x) /\
  introduced v1_6 sv None (EvidenceOccurrence_Offset x) /\
  introduced v1_6 sv "" (EvidenceOccurrence_Symbol x) /\
  introduced v1_6 sv "" (EvidenceOccurrence_AdditionalContext x).
(** /repo/cyclonedx.go:161-169 *)
Definition within_CallstackFrame (sv : SpecVersion) (x : CallstackFrame) : Prop :=
  introduced v1_5 sv "" (CallstackFrame_Package x) /\
  introduced v1_5 sv "" (CallstackFrame_Module x) /\
  introduced v1_5 sv "" (CallstackFrame_Function x) /\
  introduced v1_5 sv None (CallstackFrame_Parameters x) /\
  introduced v1_5 sv None (CallstackFrame_Line x) /\
  introduced v1_5 sv None (CallstackFrame_Column x) /\
  introduced v1_5 sv "" (CallstackFrame_FullFilename x).
(** /repo/cyclonedx.go:157-159 *)
Definition within_Callstack (sv : SpecVersion) (x : Callstack) : Prop :=
  introduced v1_5 sv None (Callstack_Frames x) /\
  all_in (within_CallstackFrame sv) (Callstack_Frames x).
(** /repo/cyclonedx.go:345-347 *)
Definition within_Copyright (sv : SpecVersion) (x : Copyright) : Prop :=
  introduced v1_3 sv "" (Copyright_Text x).
(** /repo/cyclonedx.go:672-678 *)
Definition within_Evidence (sv : SpecVersion) (x : Evidence) : Prop :=
  introduced v1_5 sv None (Evidence_Identity x) /\
  inside (within_EvidenceIdentityChoice sv) (Evidence_Identity x) /\
  introduced v1_5 sv None (Evidence_Occurrences x) /\
  all_in (within_EvidenceOccurrence sv) (Evidence_Occurrences x) /\
  introduced v1_5 sv None (Evidence_Callstack x) /\
  inside (within_Callstack sv) (Evidence_Callstack x) /\
  introduced v1_3 sv None (Evidence_Licenses x) /\
  all_in (within_LicenseChoice sv) (Evidence_Licenses x) /\
  introduced v1_3 sv None (Evidence_Copyright x) /\
  all_in (within_Copyright sv) (Evidence_Copyright x).
(** /repo/cyclonedx.go:1206-1209 *)
Definition within_Note (sv : SpecVersion) (x : Note) : Prop :=
  introduced v1_4 sv "" (Note_Locale x) /\
  introduced v1_4 sv zero_AttachedText (Note_Text x) /\
  within_AttachedText sv (Note_Text x).
(** /repo/cyclonedx.go:1323-1335 *)
Definition within_ReleaseNotes (sv : SpecVersion) (x : ReleaseNotes) : Prop :=
  introduced v1_4 sv "" (ReleaseNotes_Type x) /\
  introduced v1_4 sv "" (ReleaseNotes_Title x) /\
  introduced v1_4 sv "" (ReleaseNotes_FeaturedImage x) /\
  introduced v1_4 sv "" (ReleaseNotes_SocialImage x) /\
  introduced v1_4 sv "" (ReleaseNotes_Description x) /\
  introduced v1_4 sv "" (ReleaseNotes_Timestamp x) /\
  introduced v1_4 sv None (ReleaseNotes_Aliases x) /\
  introduced v1_4 sv None (ReleaseNotes_Tags x) /\
  introduced v1_4 sv None (ReleaseNotes_Resolves x) /\
  all_in (within_Issue sv) (ReleaseNotes_Resolves x) /\
  introduced v1_4 sv None (ReleaseNotes_Notes x) /\
  all_in (within_Note sv) (ReleaseNotes_Notes x) /\
  introduced v1_4 sv None (ReleaseNotes_Properties x) /\
  all_in (within_Property sv) (ReleaseNotes_Properties x).
(** /repo/cyclonedx.go:1175-1177 *)
Definition within_MLModelParametersApproach (sv : SpecVersion) (x : MLModelParametersApproach) : Prop :=
  introduced v1_5 sv "" (MLModelParametersApproach_Type x).
(** /repo/cyclonedx.go:290-294 *)
Definition within_ComponentDataContents (sv : SpecVersion) (x : ComponentDataContents) : Prop :=
  introduced v1_5 sv None (ComponentDataContents_Attachment x) /\
  inside (within_AttachedText sv) (ComponentDataContents_Attachment x) /\
  introduced v1_5 sv "" (ComponentDataContents_URL x) /\
  introduced v1_5 sv None (ComponentDataContents_Properties x) /\
  all_in (within_Property sv) (ComponentDataContents_Properties x).
(** /repo/cyclonedx.go:301-304 *)
Definition within_ComponentDataGraphic (sv : SpecVersion) (x : ComponentDataGraphic) : Prop :=
  introduced v1_5 sv "" (ComponentDataGraphic_Name x) /\
  introduced v1_5 sv None (ComponentDataGraphic_Image x) /\
  inside (within_AttachedText sv) (ComponentDataGraphic_Image x).
(** /repo/cyclonedx.go:306-309 *)
Definition within_ComponentDataGraphics (sv : SpecVersion) (x : ComponentDataGraphics) : Prop :=
  introduced v1_5 sv "" (ComponentDataGraphics_Description x) /\
  introduced v1_5 sv None (ComponentDataGraphics_Collection x) /\
  all_in (within_ComponentDataGraphic sv) (ComponentDataGraphics_Collection x).
(** /repo/cyclonedx.go:296-299 *)
Definition within_ComponentDataGovernanceResponsibleParty (sv : SpecVersion) (x : ComponentDataGovernanceResponsibleParty) : Prop :=
  introduced v1_5 sv None (ComponentDataGovernanceResponsibleParty_Organization x) /\
  inside (within_OrganizationalEntity sv) (ComponentDataGovernanceResponsibleParty_Organization x) /\
  introduced v1_5 sv None (ComponentDataGovernanceResponsibleParty_Contact x) /\
  inside (within_OrganizationalContact sv) (ComponentDataGovernanceResponsibleParty_Contact x).
(** /repo/cyclonedx.go:570-574 *)
Definition within_DataGovernance (sv : SpecVersion) (x : DataGovernance) : Prop :=
  introduced v1_5 sv None (DataGovernance_Custodians x) /\
  all_in (within_ComponentDataGovernanceResponsibleParty sv) (DataGovernance_Custodians x) /\
  introduced v1_5 sv None (DataGovernance_Stewards x) /\
  all_in (within_ComponentDataGovernanceResponsibleParty sv) (DataGovernance_Stewards x) /\
  introduced v1_5 sv None (DataGovernance_Owners x) /\
  all_in (within_ComponentDataGovernanceResponsibleParty sv) (DataGovernance_Owners x).
(** /repo/cyclonedx.go:278-288 *)
Definition within_ComponentData (sv : SpecVersion) (x : ComponentData) : Prop :=
  introduced v1_5 sv "" (ComponentData_BOMRef x) /\
  introduced v1_5 sv "" (ComponentData_Type x) /\
  introduced v1_5 sv "" (ComponentData_Name x) /\
  introduced v1_5 sv None (ComponentData_Contents x) /\
  inside (within_ComponentDataContents sv) (ComponentData_Contents x) /\
  introduced v1_5 sv "" (ComponentData_Classification x) /\
  introduced v1_5 sv None (ComponentData_SensitiveData x) /\
  introduced v1_5 sv None (ComponentData_Graphics x) /\
  inside (within_ComponentDataGraphics sv) (ComponentData_Graphics x) /\
  introduced v1_5 sv "" (ComponentData_Description x) /\
  introduced v1_5 sv None (ComponentData_Governance x) /\
  inside (within_DataGovernance sv) (ComponentData_Governance x).
(** /repo/cyclonedx.go:1056-1059 *)
Definition within_MLDatasetChoice (sv : SpecVersion) (x : MLDatasetChoice) : Prop :=
  introduced v1_5 sv "" (MLDatasetChoice_Ref x) /\
  introduced v1_5 sv None (MLDatasetChoice_ComponentData x) /\
  inside (within_ComponentData sv) (MLDatasetChoice_ComponentData x).
(** /repo/cyclonedx.go:1061-1063 *)
Definition within_MLInputOutputParameters (sv : SpecVersion) (x : MLInputOutputParameters) : Prop :=
  introduced v1_5 sv "" (MLInputOutputParameters_Format x).
(** /repo/cyclonedx.go:1165-1173 *)
Definition within_MLModelParameters (sv : SpecVersion) (x : MLModelParameters) : Prop :=
  introduced v1_5 sv None (MLModelParameters_Approach x) /\
  inside (within_MLModelParametersApproach sv) (MLModelParameters_Approach x) /\
  introduced v1_5 sv "" (MLModelParameters_Task x) /\
  introduced v1_5 sv "" (MLModelParameters_ArchitectureFamily x) /\
  introduced v1_5 sv "" (MLModelParameters_ModelArchitecture x) /\
  introduced v1_5 sv None (MLModelParameters_Datasets x) /\
  all_in (within_MLDatasetChoice sv) (MLModelParameters_Datasets x) /\
  introduced v1_5 sv None (MLModelParameters_Inputs x) /\
  all_in (within_MLInputOutputParameters sv) (MLModelParameters_Inputs x) /\
  introduced v1_5 sv None (MLModelParameters_Outputs x) /\
  all_in (within_MLInputOutputParameters sv) (MLModelParameters_Outputs x).
(** /repo/cyclonedx.go:1201-1204 *)
Definition within_MLPerformanceMetricConfidenceInterval (sv : SpecVersion) (x : MLPerformanceMetricConfidenceInterval) : Prop :=
  introduced v1_5 sv "" (MLPerformanceMetricConfidenceInterval_LowerBound x) /\
  introduced v1_5 sv "" (MLPerformanceMetricConfidenceInterval_UpperBound x).
(** /repo/cyclonedx.go:1194-1199 *)
Definition within_MLPerformanceMetric (sv : SpecVersion) (x : MLPerformanceMetric) : Prop :=
  introduced v1_5 sv "" (MLPerformanceMetric_Type x) /\
  introduced v1_5 sv "" (MLPerformanceMetric_Value x) /\
  introduced v1_5 sv "" (MLPerformanceMetric_Slice x) /\
  introduced v1_5 sv None (MLPerformanceMetric_ConfidenceInterval x) /\
  inside (within_MLPerformanceMetricConfidenceInterval sv) (MLPerformanceMetric_ConfidenceInterval x).
(** /repo/cyclonedx.go:1189-1192 *)
Definition within_MLQuantitativeAnalysis (sv : SpecVersion) (x : MLQuantitativeAnalysis) : Prop :=
  introduced v1_5 sv None (MLQuantitativeAnalysis_PerformanceMetrics x) /\
  all_in (within_MLPerformanceMetric sv) (MLQuantitativeAnalysis_PerformanceMetrics x) /\
  introduced v1_5 sv None (MLQuantitativeAnalysis_Graphics x) /\
  inside (within_ComponentDataGraphics sv) (MLQuantitativeAnalysis_Graphics x).
(** /repo/cyclonedx.go:1087-1090 *)
Definition within_MLModelCardEthicalConsideration (sv : SpecVersion) (x : MLModelCardEthicalConsideration) : Prop :=
  introduced v1_5 sv "" (MLModelCardEthicalConsideration_Name x) /\
  introduced v1_5 sv "" (MLModelCardEthicalConsideration_MitigationStrategy x).
(** /repo/cyclonedx.go:1131-1134 *)
Definition within_MLModelEnergyMeasure (sv : SpecVersion) (x : MLModelEnergyMeasure) : Prop :=
  introduced v1_6 sv fzero (MLModelEnergyMeasure_Value x) /\
  introduced v1_6 sv "" (MLModelEnergyMeasure_Unit x).
(** /repo/cyclonedx.go:1136-1143 *)
Definition within_MLModelEnergyProvider (sv : SpecVersion) (x : MLModelEnergyProvider) : Prop :=
  introduced v1_6 sv "" (MLModelEnergyProvider_BOMRef x) /\
  introduced v1_6 sv "" (MLModelEnergyProvider_Description x) /\
  introduced v1_6 sv None (MLModelEnergyProvider_Organization x) /\
  inside (within_OrganizationalEntity sv) (MLModelEnergyProvider_Organization x) /\
  introduced v1_6 sv "" (MLModelEnergyProvider_EnergySource x) /\
  introduced v1_6 sv None (MLModelEnergyProvider_EnergyProvided x) /\
  inside (within_MLModelEnergyMeasure sv) (MLModelEnergyProvider_EnergyProvided x) /\
  introduced v1_6 sv None (MLModelEnergyProvider_ExternalReferences x) /\
  all_in (within_ExternalReference sv) (MLModelEnergyProvider_ExternalReferences x).
(** /repo/cyclonedx.go:1099-1102 *)
Definition within_MLModelCO2Measure (sv : SpecVersion) (x : MLModelCO2Measure) : Prop :=
  introduced v1_6 sv fzero (MLModelCO2Measure_Value x) /\
  introduced v1_6 sv "" (MLModelCO2Measure_Unit x).
(** /repo/cyclonedx.go:1108-1115 *)
Definition within_MLModelEnergyConsumption (sv : SpecVersion) (x : MLModelEnergyConsumption) : Prop :=
  introduced v1_6 sv "" (MLModelEnergyConsumption_Activity x) /\
  introduced v1_6 sv None (MLModelEnergyConsumption_EnergyProviders x) /\
  all_in (within_MLModelEnergyProvider sv) (MLModelEnergyConsumption_EnergyProviders x) /\
  introduced v1_6 sv zero_MLModelEnergyMeasure (MLModelEnergyConsumption_ActivityEnergyCost x) /\
  within_MLModelEnergyMeasure sv (MLModelEnergyConsumption_ActivityEnergyCost x) /\
  introduced v1_6 sv None (MLModelEnergyConsumption_CO2CostEquivalent x) /\
  inside (within_MLModelCO2Measure sv) (MLModelEnergyConsumption_CO2CostEquivalent x) /\
  introduced v1_6 sv None (MLModelEnergyConsumption_CO2CostOffset x) /\
  inside (within_MLModelCO2Measure sv) (MLModelEnergyConsumption_CO2CostOffset x) /\
  introduced v1_6 sv None (MLModelEnergyConsumption_Properties x) /\
  all_in (within_Property sv) (MLModelEnergyConsumption_Properties x).
(** /repo/cyclonedx.go:1082-1085 *)
Definition within_MLModelCardEnvironmentalConsiderations (sv : SpecVersion) (x : MLModelCardEnvironmentalConsiderations) : Prop :=
  introduced v1_6 sv None (MLModelCardEnvironmentalConsiderations_EnergyConsumptions x) /\
  all_in (within_MLModelEnergyConsumption sv) (MLModelCardEnvironmentalConsiderations_EnergyConsumptions x) /\
  introduced v1_6 sv None (MLModelCardEnvironmentalConsiderations_Properties x) /\
  all_in (within_Property sv) (MLModelCardEnvironmentalConsiderations_Properties x).
(** /repo/cyclonedx.go:1092-1097 *)
Definition within_MLModelCardFairnessAssessment (sv : SpecVersion) (x : MLModelCardFairnessAssessment) : Prop :=
  introduced v1_5 sv "" (MLModelCardFairnessAssessment_GroupAtRisk x) /\
  introduced v1_5 sv "" (MLModelCardFairnessAssessment_Benefits x) /\
  introduced v1_5 sv "" (MLModelCardFairnessAssessment_Harms x) /\
  introduced v1_5 sv "" (MLModelCardFairnessAssessment_MitigationStrategy x).
(** /repo/cyclonedx.go:1072-1080 *)
Definition within_MLModelCardConsiderations (sv : SpecVersion) (x : MLModelCardConsiderations) : Prop :=
  introduced v1_5 sv None (MLModelCardConsiderations_Users x) /\
  introduced v1_5 sv None (MLModelCardConsiderations_UseCases x) /\
  introduced v1_5 sv None (MLModelCardConsiderations_TechnicalLimitations x) /\
  introduced v1_5 sv None (MLModelCardConsiderations_PerformanceTradeoffs x) /\
  introduced v1_5 sv None (MLModelCardConsiderations_EthicalConsiderations x) /\
  all_in (within_MLModelCardEthicalConsideration sv) (MLModelCardConsiderations_EthicalConsiderations x) /\
  introduced v1_6 sv None (MLModelCardConsiderations_EnvironmentalConsiderations x) /\
  inside (within_MLModelCardEnvironmentalConsiderations sv) (MLModelCardConsiderations_EnvironmentalConsiderations x) /\
  introduced v1_5 sv None (MLModelCardConsiderations_FairnessAssessments x) /\
  all_in (within_MLModelCardFairnessAssessment sv) (MLModelCardConsiderations_FairnessAssessments x).
(** /repo/cyclonedx.go:1065-1070 *)
Definition within_MLModelCard (sv : SpecVersion) (x : MLModelCard) : Prop :=
  introduced v1_5 sv "" (MLModelCard_BOMRef x) /\
  introduced v1_5 sv None (MLModelCard_ModelParameters x) /\
  inside (within_MLModelParameters sv) (MLModelCard_ModelParameters x) /\
  introduced v1_5 sv None (MLModelCard_QuantitativeAnalysis x) /\
  inside (within_MLQuantitativeAnalysis sv) (MLModelCard_QuantitativeAnalysis x) /\
  introduced v1_5 sv None (MLModelCard_Considerations x) /\
  inside (within_MLModelCardConsiderations sv) (MLModelCard_Considerations x).
(** /repo/cyclonedx.go:368-382 *)
Definition within_CryptoAlgorithmProperties (sv : SpecVersion) (x : CryptoAlgorithmProperties) : Prop :=
  introduced v1_6 sv "" (CryptoAlgorithmProperties_Primitive x) /\
  not_newer CryptoPrimitive_values sv (CryptoAlgorithmProperties_Primitive x) /\
  introduced v1_6 sv "" (CryptoAlgorithmProperties_ParameterSetIdentifier x) /\
  introduced v1_7 sv "" (CryptoAlgorithmProperties_AlgorithmFamily x) /\
  introduced v1_6 sv "" (CryptoAlgorithmProperties_Curve x) /\
  introduced v1_7 sv "" (CryptoAlgorithmProperties_EllipticCurve x) /\
  introduced v1_6 sv "" (CryptoAlgorithmProperties_ExecutionEnvironment x) /\
  introduced v1_6 sv "" (CryptoAlgorithmProperties_ImplementationPlatform x) /\
  introduced v1_6 sv None (CryptoAlgorithmProperties_CertificationLevel x) /\
  introduced v1_6 sv "" (CryptoAlgorithmProperties_Mode x) /\
  introduced v1_6 sv "" (CryptoAlgorithmProperties_Padding x) /\
  introduced v1_6 sv None (CryptoAlgorithmProperties_CryptoFunctions x) /\
  introduced v1_6 sv None (CryptoAlgorithmProperties_ClassicalSecurityLevel x) /\
  introduced v1_6 sv None (CryptoAlgorithmProperties_NistQuantumSecurityLevel x).
(** /repo/cyclonedx.go:1880-1883 *)
Definition within_PredefinedCertificateState (sv : SpecVersion) (x : PredefinedCertificateState) : Prop :=
  introduced v1_7 sv "" (PredefinedCertificateState_State x) /\
  introduced v1_7 sv "" (PredefinedCertificateState_Reason x).
(** /repo/cyclonedx.go:1886-1890 *)
Definition within_CustomCertificateState (sv : SpecVersion) (x : CustomCertificateState) : Prop :=
  introduced v1_7 sv "" (CustomCertificateState_Name x) /\
  introduced v1_7 sv "" (CustomCertificateState_Description x) /\
  introduced v1_7 sv "" (CustomCertificateState_Reason x).
(** /repo/cyclonedx.go:1874-1877 *)
Definition within_CertificateState (sv : SpecVersion) (x : CertificateState) : Prop :=
  introduced v1_7 sv None (CertificateState_Predefined x) /\
  inside (within_PredefinedCertificateState sv) (CertificateState_Predefined x) /\
  introduced v1_7 sv None (CertificateState_Custom x) /\
  inside (within_CustomCertificateState sv) (CertificateState_Custom x).
(** /repo/cyclonedx.go:1913-1916 *)
Definition within_CommonCertificateExtension (sv : SpecVersion) (x : CommonCertificateExtension) : Prop :=
  introduced v1_7 sv "" (CommonCertificateExtension_Name x) /\
  introduced v1_7 sv "" (CommonCertificateExtension_Value x).
(** /repo/cyclonedx.go:1919-1922 *)
Definition within_CustomCertificateExtension (sv : SpecVersion) (x : CustomCertificateExtension) : Prop :=
  introduced v1_7 sv "" (CustomCertificateExtension_Name x) /\
  introduced v1_7 sv "" (CustomCertificateExtension_Value x).
(** /repo/cyclonedx.go:1907-1910 *)
Definition within_CertificateExtension (sv : SpecVersion) (x : CertificateExtension) : Prop :=
  introduced v1_7 sv None (CertificateExtension_Common x) /\
  inside (within_CommonCertificateExtension sv) (CertificateExtension_Common x) /\
  introduced v1_7 sv None (CertificateExtension_Custom x) /\
  inside (within_CustomCertificateExtension sv) (CertificateExtension_Custom x).
(** /repo/cyclonedx.go:1866-1869 *)
Definition within_RelatedCryptographicAsset (sv : SpecVersion) (x : RelatedCryptographicAsset) : Prop :=
  introduced v1_7 sv "" (RelatedCryptographicAsset_Type x) /\
  introduced v1_7 sv "" (RelatedCryptographicAsset_Ref x).
(** /repo/cyclonedx.go:171-191 *)
Definition within_CertificateProperties (sv : SpecVersion) (x : CertificateProperties) : Prop :=
  introduced v1_7 sv "" (CertificateProperties_SerialNumber x) /\
  introduced v1_6 sv "" (CertificateProperties_SubjectName x) /\
  introduced v1_6 sv "" (CertificateProperties_IssuerName x) /\
  introduced v1_6 sv "" (CertificateProperties_NotValidBefore x) /\
  introduced v1_6 sv "" (CertificateProperties_NotValidAfter x) /\
  introduced v1_6 sv "" (CertificateProperties_SignatureAlgorithmRef x) /\
  introduced v1_6 sv "" (CertificateProperties_SubjectPublicKeyRef x) /\
  introduced v1_6 sv "" (CertificateProperties_CertificateFormat x) /\
  introduced v1_6 sv "" (CertificateProperties_CertificateExtension x) /\
  introduced v1_7 sv "" (CertificateProperties_CertificateFileExtension x) /\
  introduced v1_7 sv None (CertificateProperties_Fingerprint x) /\
  inside (within_Hash sv) (CertificateProperties_Fingerprint x) /\
  introduced v1_7 sv None (CertificateProperties_CertificateState x) /\
  all_in (within_CertificateState sv) (CertificateProperties_CertificateState x) /\
  introduced v1_7 sv None (CertificateProperties_CertificateExtensions x) /\
  all_in (within_CertificateExtension sv) (CertificateProperties_CertificateExtensions x) /\
  introduced v1_7 sv None (CertificateProperties_RelatedCryptographicAssets x) /\
  all_in (within_RelatedCryptographicAsset sv) (CertificateProperties_RelatedCryptographicAssets x) /\
  introduced v1_7 sv "" (CertificateProperties_CreationDate x) /\
  introduced v1_7 sv "" (CertificateProperties_ActivationDate x) /\
  introduced v1_7 sv "" (CertificateProperties_DeactivationDate x) /\
  introduced v1_7 sv "" (CertificateProperties_RevocationDate x) /\
  introduced v1_7 sv "" (CertificateProperties_DestructionDate x).
(** /repo/cyclonedx.go:546-549 *)
Definition within_SecuredBy (sv : SpecVersion) (x : SecuredBy) : Prop :=
  introduced v1_6 sv "" (SecuredBy_Mechanism x) /\
  introduced v1_6 sv "" (SecuredBy_AlgorithmRef x).
(** /repo/cyclonedx.go:1282-1297 *)
Definition within_RelatedCryptoMaterialProperties (sv : SpecVersion) (x : RelatedCryptoMaterialProperties) : Prop :=
  introduced v1_6 sv "" (RelatedCryptoMaterialProperties_Type x) /\
  introduced v1_6 sv "" (RelatedCryptoMaterialProperties_ID x) /\
  introduced v1_6 sv "" (RelatedCryptoMaterialProperties_State x) /\
  introduced v1_6 sv "" (RelatedCryptoMaterialProperties_AlgorithmRef x) /\
  introduced v1_6 sv "" (RelatedCryptoMaterialProperties_CreationDate x) /\
  introduced v1_6 sv "" (RelatedCryptoMaterialProperties_ActivationDate x) /\
  introduced v1_6 sv "" (RelatedCryptoMaterialProperties_UpdateDate x) /\
  introduced v1_6 sv "" (RelatedCryptoMaterialProperties_ExpirationDate x) /\
  introduced v1_6 sv "" (RelatedCryptoMaterialProperties_Value x) /\
  introduced v1_6 sv None (RelatedCryptoMaterialProperties_Size x) /\
  introduced v1_6 sv "" (RelatedCryptoMaterialProperties_Format x) /\
  introduced v1_6 sv None (RelatedCryptoMaterialProperties_SecuredBy x) /\
  inside (within_SecuredBy sv) (RelatedCryptoMaterialProperties_SecuredBy x) /\
  introduced v1_7 sv None (RelatedCryptoMaterialProperties_Fingerprint x) /\
  inside (within_Hash sv) (RelatedCryptoMaterialProperties_Fingerprint x) /\
  introduced v1_7 sv None (RelatedCryptoMaterialProperties_RelatedCryptographicAssets x) /\
  all_in (within_RelatedCryptographicAsset sv) (RelatedCryptoMaterialProperties_RelatedCryptographicAssets x).
(** /repo/cyclonedx.go:205-211 *)
Definition within_CipherSuite (sv : SpecVersion) (x : CipherSuite) : Prop :=
  introduced v1_6 sv "" (CipherSuite_Name x) /\
  introduced v1_6 sv None (CipherSuite_Algorithms x) /\
  introduced v1_6 sv None (CipherSuite_Identifiers x) /\
  introduced v1_7 sv None (CipherSuite_TLSGroups x) /\
  introduced v1_7 sv None (CipherSuite_TLSSignatureSchemes x).
(** /repo/cyclonedx.go:1834-1839 *)
Definition within_IKEv2Enc (sv : SpecVersion) (x : IKEv2Enc) : Prop :=
  introduced v1_6 sv "" (IKEv2Enc_BOMRef x) /\
  introduced v1_7 sv "" (IKEv2Enc_Name x) /\
  introduced v1_7 sv None (IKEv2Enc_KeyLength x) /\
  introduced v1_7 sv "" (IKEv2Enc_Algorithm x).
(** /repo/cyclonedx.go:1859-1863 *)
Definition within_IKEv2Prf (sv : SpecVersion) (x : IKEv2Prf) : Prop :=
  introduced v1_6 sv "" (IKEv2Prf_BOMRef x) /\
  introduced v1_7 sv "" (IKEv2Prf_Name x) /\
  introduced v1_7 sv "" (IKEv2Prf_Algorithm x).
(** /repo/cyclonedx.go:1843-1847 *)
Definition within_IKEv2Integ (sv : SpecVersion) (x : IKEv2Integ) : Prop :=
  introduced v1_6 sv "" (IKEv2Integ_BOMRef x) /\
  introduced v1_7 sv "" (IKEv2Integ_Name x) /\
  introduced v1_7 sv "" (IKEv2Integ_Algorithm x).
(** /repo/cyclonedx.go:1851-1855 *)
Definition within_IKEv2Ke (sv : SpecVersion) (x : IKEv2Ke) : Prop :=
  introduced v1_6 sv "" (IKEv2Ke_BOMRef x) /\
  introduced v1_7 sv None (IKEv2Ke_Group x) /\
  introduced v1_7 sv "" (IKEv2Ke_Algorithm x).
(** /repo/cyclonedx.go:1826-1830 *)
Definition within_IKEv2Auth (sv : SpecVersion) (x : IKEv2Auth) : Prop :=
  introduced v1_6 sv "" (IKEv2Auth_BOMRef x) /\
  introduced v1_7 sv "" (IKEv2Auth_Name x) /\
  introduced v1_7 sv "" (IKEv2Auth_Algorithm x).
(** /repo/cyclonedx.go:537-544 *)
Definition within_IKEv2TransformTypes (sv : SpecVersion) (x : IKEv2TransformTypes) : Prop :=
  introduced v1_6 sv None (IKEv2TransformTypes_Encr x) /\
  all_in (within_IKEv2Enc sv) (IKEv2TransformTypes_Encr x) /\
  introduced v1_6 sv None (IKEv2TransformTypes_PRF x) /\
  all_in (within_IKEv2Prf sv) (IKEv2TransformTypes_PRF x) /\
  introduced v1_6 sv None (IKEv2TransformTypes_Integ x) /\
  all_in (within_IKEv2Integ sv) (IKEv2TransformTypes_Integ x) /\
  introduced v1_6 sv None (IKEv2TransformTypes_KE x) /\
  all_in (within_IKEv2Ke sv) (IKEv2TransformTypes_KE x) /\
  introduced v1_6 sv false (IKEv2TransformTypes_ESN x) /\
  introduced v1_6 sv None (IKEv2TransformTypes_Auth x) /\
  all_in (within_IKEv2Auth sv) (IKEv2TransformTypes_Auth x).
(** /repo/cyclonedx.go:509-516 *)
Definition within_CryptoProtocolProperties (sv : SpecVersion) (x : CryptoProtocolProperties) : Prop :=
  introduced v1_6 sv "" (CryptoProtocolProperties_Type x) /\
  not_newer CryptoProtocolType_values sv (CryptoProtocolProperties_Type x) /\
  introduced v1_6 sv "" (CryptoProtocolProperties_Version x) /\
  introduced v1_6 sv None (CryptoProtocolProperties_CipherSuites x) /\
  all_in (within_CipherSuite sv) (CryptoProtocolProperties_CipherSuites x) /\
  introduced v1_6 sv None (CryptoProtocolProperties_IKEv2TransformTypes x) /\
  inside (within_IKEv2TransformTypes sv) (CryptoProtocolProperties_IKEv2TransformTypes x) /\
  introduced v1_6 sv None (CryptoProtocolProperties_CryptoRefArray x) /\
  introduced v1_7 sv None (CryptoProtocolProperties_RelatedCryptographicAssets x) /\
  all_in (within_RelatedCryptographicAsset sv) (CryptoProtocolProperties_RelatedCryptographicAssets x).
(** /repo/cyclonedx.go:500-507 *)
Definition within_CryptoProperties (sv : SpecVersion) (x : CryptoProperties) : Prop :=
  introduced v1_6 sv "" (CryptoProperties_AssetType x) /\
  introduced v1_6 sv None (CryptoProperties_AlgorithmProperties x) /\
  inside (within_CryptoAlgorithmProperties sv) (CryptoProperties_AlgorithmProperties x) /\
  introduced v1_6 sv None (CryptoProperties_CertificateProperties x) /\
  inside (within_CertificateProperties sv) (CryptoProperties_CertificateProperties x) /\
  introduced v1_6 sv None (CryptoProperties_RelatedCryptoMaterialProperties x) /\
  inside (within_RelatedCryptoMaterialProperties sv) (CryptoProperties_RelatedCryptoMaterialProperties x) /\
  introduced v1_6 sv None (CryptoProperties_ProtocolProperties x) /\
  inside (within_CryptoProtocolProperties sv) (CryptoProperties_ProtocolProperties x) /\
  introduced v1_6 sv "" (CryptoProperties_OID x).
(** /repo/cyclonedx.go:1772-1776 *)
Definition within_AsserterChoice (sv : SpecVersion) (x : AsserterChoice) : Prop :=
  introduced v1_7 sv None (AsserterChoice_Organization x) /\
  inside (within_OrganizationalEntity sv) (AsserterChoice_Organization x) /\
  introduced v1_7 sv None (AsserterChoice_Individual x) /\
  inside (within_OrganizationalContact sv) (AsserterChoice_Individual x) /\
  introduced v1_7 sv None (AsserterChoice_BOMRef x).
(** /repo/cyclonedx.go:1779-1785 *)
Definition within_PatentAssertion (sv : SpecVersion) (x : PatentAssertion) : Prop :=
  introduced v1_7 sv "" (PatentAssertion_BOMRef x) /\
  introduced v1_7 sv None (PatentAssertion_PatentRefs x) /\
  introduced v1_7 sv "" (PatentAssertion_AssertionType x) /\
  introduced v1_7 sv None (PatentAssertion_Asserter x) /\
  inside (within_AsserterChoice sv) (PatentAssertion_Asserter x) /\
  introduced v1_7 sv "" (PatentAssertion_Notes x).
(** /repo/cyclonedx.go:925-934 *)
Definition within_JSFPublicKey (sv : SpecVersion) (x : JSFPublicKey) : Prop :=
  introduced v1_4 sv "" (JSFPublicKey_KTY x) /\
  introduced v1_4 sv "" (JSFPublicKey_CRV x) /\
  introduced v1_4 sv "" (JSFPublicKey_X x) /\
  introduced v1_4 sv "" (JSFPublicKey_Y x) /\
  introduced v1_4 sv "" (JSFPublicKey_N x) /\
  introduced v1_4 sv "" (JSFPublicKey_E x).
(** /repo/cyclonedx.go:916-923 *)
Definition within_JSFSigner (sv : SpecVersion) (x : JSFSigner) : Prop :=
  introduced v1_4 sv "" (JSFSigner_Algorithm x) /\
  introduced v1_4 sv "" (JSFSigner_KeyID x) /\
  introduced v1_4 sv zero_JSFPublicKey (JSFSigner_PublicKey x) /\
  within_JSFPublicKey sv (JSFSigner_PublicKey x) /\
  introduced v1_4 sv None (JSFSigner_CertificatePath x) /\
  introduced v1_4 sv None (JSFSigner_Excludes x) /\
  introduced v1_4 sv "" (JSFSigner_Value x).
(** /repo/cyclonedx.go:909-914 *)
Definition within_JSFSignature (sv : SpecVersion) (x : JSFSignature) : Prop :=
  introduced v1_4 sv None (JSFSignature_JSFSigner x) /\
  inside (within_JSFSigner sv) (JSFSignature_JSFSigner x) /\
  introduced v1_4 sv None (JSFSignature_Signers x) /\
  all_in (within_JSFSigner sv) (JSFSignature_Signers x) /\
  introduced v1_4 sv None (JSFSignature_Chain x) /\
  all_in (within_JSFSigner sv) (JSFSignature_Chain x).
(** /repo/cyclonedx.go:239-276 *)
Fixpoint within_Component (sv : SpecVersion) (x : Component) {struct x} : Prop :=
  introduced v1_1 sv "" (Component_BOMRef x) /\
  introduced v1_2 sv "" (Component_MIMEType x) /\
  not_newer ComponentType_values sv (Component_Type x) /\
  introduced v1_2 sv None (Component_Supplier x) /\
  inside (within_OrganizationalEntity sv) (Component_Supplier x) /\
  introduced v1_6 sv None (Component_Manufacturer x) /\
  inside (within_OrganizationalEntity sv) (Component_Manufacturer x) /\
  introduced v1_2 sv "" (Component_Author x) /\
  introduced v1_6 sv None (Component_Authors x) /\
  all_in (within_OrganizationalContact sv) (Component_Authors x) /\
  not_newer Scope_values sv (Component_Scope x) /\
  all_in (within_Hash sv) (Component_Hashes x) /\
  all_in (within_LicenseChoice sv) (Component_Licenses x) /\
  introduced v1_6 sv None (Component_OmniborID x) /\
  introduced v1_6 sv None (Component_SWHID x) /\
  introduced v1_2 sv None (Component_SWID x) /\
  inside (within_SWID sv) (Component_SWID x) /\
  introduced v1_1 sv None (Component_Pedigree x) /\
  inside (within_Pedigree (within_Component sv) sv) (Component_Pedigree x) /\
  introduced v1_1 sv None (Component_ExternalReferences x) /\
  all_in (within_ExternalReference sv) (Component_ExternalReferences x) /\
  introduced v1_3 sv None (Component_Properties x) /\
  all_in (within_Property sv) (Component_Properties x) /\
  all_in (within_Component sv) (Component_Components x) /\
  introduced v1_3 sv None (Component_Evidence x) /\
  inside (within_Evidence sv) (Component_Evidence x) /\
  introduced v1_4 sv None (Component_ReleaseNotes x) /\
  inside (within_ReleaseNotes sv) (Component_ReleaseNotes x) /\
  introduced v1_5 sv None (Component_ModelCard x) /\
  inside (within_MLModelCard sv) (Component_ModelCard x) /\
  introduced v1_5 sv None (Component_Data x) /\
  all_in (within_ComponentData sv) (Component_Data x) /\
  introduced v1_6 sv None (Component_CryptoProperties x) /\
  inside (within_CryptoProperties sv) (Component_CryptoProperties x) /\
  introduced v1_6 sv None (Component_Tags x) /\
  introduced v1_7 sv None (Component_IsExternal x) /\
  introduced v1_7 sv None (Component_PatentAssertions x) /\
  all_in (within_PatentAssertion sv) (Component_PatentAssertions x) /\
  introduced v1_7 sv "" (Component_VersionRange x) /\
  introduced v1_4 sv None (Component_Signature x) /\
  inside (within_JSFSignature sv) (Component_Signature x).
(** /repo/cyclonedx.go:551-559 *)
Definition within_DataClassification (sv : SpecVersion) (x : DataClassification) : Prop :=
  introduced v1_2 sv "" (DataClassification_Flow x) /\
  introduced v1_2 sv "" (DataClassification_Classification x) /\
  introduced v1_5 sv "" (DataClassification_Name x) /\
  introduced v1_5 sv "" (DataClassification_Description x) /\
  introduced v1_5 sv None (DataClassification_Governance x) /\
  inside (within_DataGovernance sv) (DataClassification_Governance x) /\
  introduced v1_5 sv None (DataClassification_Source x) /\
  introduced v1_5 sv None (DataClassification_Destination x).
(** /repo/cyclonedx.go:1362-1382 *)
Fixpoint within_Service (sv : SpecVersion) (x : Service) {struct x} : Prop :=
  introduced v1_2 sv "" (Service_BOMRef x) /\
  introduced v1_2 sv None (Service_Provider x) /\
  inside (within_OrganizationalEntity sv) (Service_Provider x) /\
  introduced v1_2 sv "" (Service_Group x) /\
  introduced v1_2 sv "" (Service_Name x) /\
  introduced v1_2 sv "" (Service_Version x) /\
  introduced v1_2 sv "" (Service_Description x) /\
  introduced v1_2 sv None (Service_Endpoints x) /\
  introduced v1_2 sv None (Service_Authenticated x) /\
  introduced v1_2 sv None (Service_CrossesTrustBoundary x) /\
  introduced v1_2 sv None (Service_Data x) /\
  all_in (within_DataClassification sv) (Service_Data x) /\
  introduced v1_2 sv None (Service_Licenses x) /\
  all_in (within_LicenseChoice sv) (Service_Licenses x) /\
  introduced v1_2 sv None (Service_ExternalReferences x) /\
  all_in (within_ExternalReference sv) (Service_ExternalReferences x) /\
  introduced v1_3 sv None (Service_Properties x) /\
  all_in (within_Property sv) (Service_Properties x) /\
  introduced v1_2 sv None (Service_Services x) /\
  all_in (within_Service sv) (Service_Services x) /\
  introduced v1_4 sv None (Service_ReleaseNotes x) /\
  inside (within_ReleaseNotes sv) (Service_ReleaseNotes x) /\
  introduced v1_6 sv None (Service_Tags x) /\
  introduced v1_5 sv "" (Service_TrustZone x) /\
  introduced v1_7 sv None (Service_PatentAssertions x) /\
  all_in (within_PatentAssertion sv) (Service_PatentAssertions x) /\
  introduced v1_4 sv None (Service_Signature x) /\
  inside (within_JSFSignature sv) (Service_Signature x).
(** /repo/cyclonedx.go:60-65 *)
Definition within_Annotator (sv : SpecVersion) (x : Annotator) : Prop :=
  introduced v1_5 sv None (Annotator_Organization x) /\
  inside (within_OrganizationalEntity sv) (Annotator_Organization x) /\
  introduced v1_5 sv None (Annotator_Individual x) /\
  inside (within_OrganizationalContact sv) (Annotator_Individual x) /\
  introduced v1_5 sv None (Annotator_Component x) /\
  inside (within_Component sv) (Annotator_Component x) /\
  introduced v1_5 sv None (Annotator_Service x) /\
  inside (within_Service sv) (Annotator_Service x).
(** /repo/cyclonedx.go:51-58 *)
Definition within_Annotation (sv : SpecVersion) (x : Annotation) : Prop :=
  introduced v1_5 sv "" (Annotation_BOMRef x) /\
  introduced v1_5 sv None (Annotation_Subjects x) /\
  introduced v1_5 sv None (Annotation_Annotator x) /\
  inside (within_Annotator sv) (Annotation_Annotator x) /\
  introduced v1_5 sv "" (Annotation_Timestamp x) /\
  introduced v1_5 sv "" (Annotation_Text x) /\
  introduced v1_5 sv None (Annotation_Signature x) /\
  inside (within_JSFSignature sv) (Annotation_Signature x).
(** /repo/cyclonedx.go:67-71 *)
Definition within_Assessor (sv : SpecVersion) (x : Assessor) : Prop :=
  introduced v1_6 sv "" (Assessor_BOMRef x) /\
  introduced v1_6 sv false (Assessor_ThirdParty x) /\
  introduced v1_6 sv None (Assessor_Organization x) /\
  inside (within_OrganizationalEntity sv) (Assessor_Organization x).
(** /repo/cyclonedx.go:94-98 *)
Definition within_AttestationConformance (sv : SpecVersion) (x : AttestationConformance) : Prop :=
  introduced v1_6 sv None (AttestationConformance_Score x) /\
  introduced v1_6 sv "" (AttestationConformance_Rationale x) /\
  introduced v1_6 sv None (AttestationConformance_MitigationStrategies x).
(** /repo/cyclonedx.go:100-103 *)
Definition within_AttestationConfidence (sv : SpecVersion) (x : AttestationConfidence) : Prop :=
  introduced v1_6 sv None (AttestationConfidence_Score x) /\
  introduced v1_6 sv "" (AttestationConfidence_Rationale x).
(** /repo/cyclonedx.go:86-92 *)
Definition within_AttestationMap (sv : SpecVersion) (x : AttestationMap) : Prop :=
  introduced v1_6 sv "" (AttestationMap_Requirement x) /\
  introduced v1_6 sv None (AttestationMap_Claims x) /\
  introduced v1_6 sv None (AttestationMap_CounterClaims x) /\
  introduced v1_6 sv None (AttestationMap_Conformance x) /\
  inside (within_AttestationConformance sv) (AttestationMap_Conformance x) /\
  introduced v1_6 sv None (AttestationMap_Confidence x) /\
  inside (within_AttestationConfidence sv) (AttestationMap_Confidence x).
(** /repo/cyclonedx.go:79-84 *)
Definition within_Attestation (sv : SpecVersion) (x : Attestation) : Prop :=
  introduced v1_6 sv "" (Attestation_Summary x) /\
  introduced v1_6 sv "" (Attestation_Assessor x) /\
  introduced v1_6 sv None (Attestation_Map x) /\
  all_in (within_AttestationMap sv) (Attestation_Map x) /\
  introduced v1_6 sv None (Attestation_Signature x) /\
  inside (within_JSFSignature sv) (Attestation_Signature x).
(** /repo/cyclonedx.go:1006-1010 *)
Definition within_Lifecycle (sv : SpecVersion) (x : Lifecycle) : Prop :=
  introduced v1_5 sv "" (Lifecycle_Name x) /\
  introduced v1_5 sv "" (Lifecycle_Phase x) /\
  introduced v1_5 sv "" (Lifecycle_Description x).
(** /repo/cyclonedx.go:1594-1600 *)
Definition within_Tool (sv : SpecVersion) (x : Tool) : Prop :=
  introduced v1_2 sv "" (Tool_Vendor x) /\
  introduced v1_2 sv "" (Tool_Name x) /\
  introduced v1_2 sv "" (Tool_Version x) /\
  introduced v1_2 sv None (Tool_Hashes x) /\
  all_in (within_Hash sv) (Tool_Hashes x) /\
  introduced v1_4 sv None (Tool_ExternalReferences x) /\
  all_in (within_ExternalReference sv) (Tool_ExternalReferences x).
(** /repo/cyclonedx.go:1610-1614 *)
Definition within_ToolsChoice (sv : SpecVersion) (x : ToolsChoice) : Prop :=
  introduced v1_2 sv None (ToolsChoice_Tools x) /\
  all_in (within_Tool sv) (ToolsChoice_Tools x) /\
  introduced v1_5 sv None (ToolsChoice_Components x) /\
  all_in (within_Component sv) (ToolsChoice_Components x) /\
  introduced v1_5 sv None (ToolsChoice_Services x) /\
  all_in (within_Service sv) (ToolsChoice_Services x).
(** /repo/cyclonedx.go:1809-1811 *)
Definition within_DistributionConstraints (sv : SpecVersion) (x : DistributionConstraints) : Prop :=
  introduced v1_7 sv "" (DistributionConstraints_TLP x).
(** /repo/cyclonedx.go:1042-1054 *)
Definition within_Metadata (sv : SpecVersion) (x : Metadata) : Prop :=
  introduced v1_2 sv "" (Metadata_Timestamp x) /\
  introduced v1_5 sv None (Metadata_Lifecycles x) /\
  all_in (within_Lifecycle sv) (Metadata_Lifecycles x) /\
  introduced v1_2 sv None (Metadata_Tools x) /\
  inside (within_ToolsChoice sv) (Metadata_Tools x) /\
  introduced v1_2 sv None (Metadata_Authors x) /\
  all_in (within_OrganizationalContact sv) (Metadata_Authors x) /\
  introduced v1_2 sv None (Metadata_Component x) /\
  inside (within_Component sv) (Metadata_Component x) /\
  introduced v1_2 sv None (Metadata_Manufacture x) /\
  inside (within_OrganizationalEntity sv) (Metadata_Manufacture x) /\
  introduced v1_6 sv None (Metadata_Manufacturer x) /\
  inside (within_OrganizationalEntity sv) (Metadata_Manufacturer x) /\
  introduced v1_2 sv None (Metadata_Supplier x) /\
  inside (within_OrganizationalEntity sv) (Metadata_Supplier x) /\
  introduced v1_3 sv None (Metadata_Licenses x) /\
  all_in (within_LicenseChoice sv) (Metadata_Licenses x) /\
  introduced v1_3 sv None (Metadata_Properties x) /\
  all_in (within_Property sv) (Metadata_Properties x) /\
  introduced v1_7 sv None (Metadata_DistributionConstraints x) /\
  inside (within_DistributionConstraints sv) (Metadata_DistributionConstraints x).
(** /repo/cyclonedx.go:644-648 *)
Definition within_Dependency (sv : SpecVersion) (x : Dependency) : Prop :=
  introduced v1_2 sv "" (Dependency_Ref x) /\
  introduced v1_2 sv None (Dependency_Dependencies x) /\
  introduced v1_6 sv None (Dependency_Provides x).
(** /repo/cyclonedx.go:321-328 *)
Definition within_Composition (sv : SpecVersion) (x : Composition) : Prop :=
  introduced v1_5 sv "" (Composition_BOMRef x) /\
  introduced v1_3 sv "" (Composition_Aggregate x) /\
  not_newer CompositionAggregate_values sv (Composition_Aggregate x) /\
  introduced v1_3 sv None (Composition_Assemblies x) /\
  introduced v1_3 sv None (Composition_Dependencies x) /\
  introduced v1_5 sv None (Composition_Vulnerabilities x) /\
  introduced v1_4 sv None (Composition_Signature x) /\
  inside (within_JSFSignature sv) (Composition_Signature x).
(** /repo/cyclonedx.go:1676-1679 *)
Definition within_VulnerabilityReference (sv : SpecVersion) (x : VulnerabilityReference) : Prop :=
  introduced v1_4 sv "" (VulnerabilityReference_ID x) /\
  introduced v1_4 sv None (VulnerabilityReference_Source x) /\
  inside (within_Source sv) (VulnerabilityReference_Source x).
(** /repo/cyclonedx.go:1667-1674 *)
Definition within_VulnerabilityRating (sv : SpecVersion) (x : VulnerabilityRating) : Prop :=
  introduced v1_4 sv None (VulnerabilityRating_Source x) /\
  inside (within_Source sv) (VulnerabilityRating_Source x) /\
  introduced v1_4 sv None (VulnerabilityRating_Score x) /\
  introduced v1_4 sv "" (VulnerabilityRating_Severity x) /\
  introduced v1_4 sv "" (VulnerabilityRating_Method x) /\
  not_newer ScoringMethod_values sv (VulnerabilityRating_Method x) /\
  introduced v1_4 sv "" (VulnerabilityRating_Vector x) /\
  introduced v1_4 sv "" (VulnerabilityRating_Justification x).
(** /repo/cyclonedx.go:1271-1275 *)
Definition within_ProofOfConcept (sv : SpecVersion) (x : ProofOfConcept) : Prop :=
  introduced v1_5 sv "" (ProofOfConcept_ReproductionSteps x) /\
  introduced v1_5 sv "" (ProofOfConcept_Environment x) /\
  introduced v1_5 sv None (ProofOfConcept_SupportingMaterial x) /\
  all_in (within_AttachedText sv) (ProofOfConcept_SupportingMaterial x).
(** /repo/cyclonedx.go:349-352 *)
Definition within_Credits (sv : SpecVersion) (x : Credits) : Prop :=
  introduced v1_4 sv None (Credits_Organizations x) /\
  all_in (within_OrganizationalEntity sv) (Credits_Organizations x) /\
  introduced v1_4 sv None (Credits_Individuals x) /\
  all_in (within_OrganizationalContact sv) (Credits_Individuals x).
(** /repo/cyclonedx.go:1658-1665 *)
Definition within_VulnerabilityAnalysis (sv : SpecVersion) (x : VulnerabilityAnalysis) : Prop :=
  introduced v1_4 sv "" (VulnerabilityAnalysis_State x) /\
  introduced v1_4 sv "" (VulnerabilityAnalysis_Justification x) /\
  introduced v1_4 sv None (VulnerabilityAnalysis_Response x) /\
  introduced v1_4 sv "" (VulnerabilityAnalysis_Detail x) /\
  introduced v1_5 sv "" (VulnerabilityAnalysis_FirstIssued x) /\
  introduced v1_5 sv "" (VulnerabilityAnalysis_LastUpdated x).
(** /repo/cyclonedx.go:1634-1656 *)
Definition within_Vulnerability (sv : SpecVersion) (x : Vulnerability) : Prop :=
  introduced v1_4 sv "" (Vulnerability_BOMRef x) /\
  introduced v1_4 sv "" (Vulnerability_ID x) /\
  introduced v1_4 sv None (Vulnerability_Source x) /\
  inside (within_Source sv) (Vulnerability_Source x) /\
  introduced v1_4 sv None (Vulnerability_References x) /\
  all_in (within_VulnerabilityReference sv) (Vulnerability_References x) /\
  introduced v1_4 sv None (Vulnerability_Ratings x) /\
  all_in (within_VulnerabilityRating sv) (Vulnerability_Ratings x) /\
  introduced v1_4 sv None (Vulnerability_CWEs x) /\
  introduced v1_4 sv "" (Vulnerability_Description x) /\
  introduced v1_4 sv "" (Vulnerability_Detail x) /\
  introduced v1_4 sv "" (Vulnerability_Recommendation x) /\
  introduced v1_5 sv "" (Vulnerability_Workaround x) /\
  introduced v1_5 sv None (Vulnerability_ProofOfConcept x) /\
  inside (within_ProofOfConcept sv) (Vulnerability_ProofOfConcept x) /\
  introduced v1_4 sv None (Vulnerability_Advisories x) /\
  all_in (within_Advisory sv) (Vulnerability_Advisories x) /\
  introduced v1_4 sv "" (Vulnerability_Created x) /\
  introduced v1_4 sv "" (Vulnerability_Published x) /\
  introduced v1_4 sv "" (Vulnerability_Updated x) /\
  introduced v1_5 sv "" (Vulnerability_Rejected x) /\
  introduced v1_4 sv None (Vulnerability_Credits x) /\
  inside (within_Credits sv) (Vulnerability_Credits x) /\
  introduced v1_4 sv None (Vulnerability_Tools x) /\
  inside (within_ToolsChoice sv) (Vulnerability_Tools x) /\
  introduced v1_4 sv None (Vulnerability_Analysis x) /\
  inside (within_VulnerabilityAnalysis sv) (Vulnerability_Analysis x) /\
  introduced v1_4 sv None (Vulnerability_Affects x) /\
  all_in (within_Affects sv) (Vulnerability_Affects x) /\
  introduced v1_4 sv None (Vulnerability_Properties x) /\
  all_in (within_Property sv) (Vulnerability_Properties x).
(** /repo/cyclonedx.go:1337-1340 *)
Definition within_ResourceReferenceChoice (sv : SpecVersion) (x : ResourceReferenceChoice) : Prop :=
  introduced v1_5 sv "" (ResourceReferenceChoice_Ref x) /\
  introduced v1_5 sv None (ResourceReferenceChoice_ExternalReference x) /\
  inside (within_ExternalReference sv) (ResourceReferenceChoice_ExternalReference x).
(** /repo/cyclonedx.go:662-670 *)
Definition within_Event (sv : SpecVersion) (x : Event) : Prop :=
  introduced v1_5 sv "" (Event_UID x) /\
  introduced v1_5 sv "" (Event_Description x) /\
  introduced v1_5 sv "" (Event_TimeReceived x) /\
  introduced v1_5 sv None (Event_Data x) /\
  inside (within_AttachedText sv) (Event_Data x) /\
  introduced v1_5 sv None (Event_Source x) /\
  inside (within_ResourceReferenceChoice sv) (Event_Source x) /\
  introduced v1_5 sv None (Event_Target x) /\
  inside (within_ResourceReferenceChoice sv) (Event_Target x) /\
  introduced v1_5 sv None (Event_Properties x) /\
  all_in (within_Property sv) (Event_Properties x).
(** /repo/cyclonedx.go:1536-1540 *)
Definition within_TaskTriggerCondition (sv : SpecVersion) (x : TaskTriggerCondition) : Prop :=
  introduced v1_5 sv "" (TaskTriggerCondition_Description x) /\
  introduced v1_5 sv "" (TaskTriggerCondition_Expression x) /\
  introduced v1_5 sv None (TaskTriggerCondition_Properties x) /\
  all_in (within_Property sv) (TaskTriggerCondition_Properties x).
(** /repo/cyclonedx.go:1231-1235 *)
Definition within_Parameter_t (sv : SpecVersion) (x : Parameter_t) : Prop :=
  introduced v1_5 sv "" (Parameter_t_Name x) /\
  introduced v1_5 sv "" (Parameter_t_Value x) /\
  introduced v1_5 sv "" (Parameter_t_DataType x).
(** /repo/cyclonedx.go:1482-1490 *)
Definition within_TaskInput (sv : SpecVersion) (x : TaskInput) : Prop :=
  introduced v1_5 sv None (TaskInput_Resource x) /\
  inside (within_ResourceReferenceChoice sv) (TaskInput_Resource x) /\
  introduced v1_5 sv None (TaskInput_Parameters x) /\
  all_in (within_Parameter_t sv) (TaskInput_Parameters x) /\
  introduced v1_5 sv None (TaskInput_EnvironmentVars x) /\
  all_in (within_EnvironmentVariableChoice sv) (TaskInput_EnvironmentVars x) /\
  introduced v1_5 sv None (TaskInput_Data x) /\
  inside (within_AttachedText sv) (TaskInput_Data x) /\
  introduced v1_5 sv None (TaskInput_Source x) /\
  inside (within_ResourceReferenceChoice sv) (TaskInput_Source x) /\
  introduced v1_5 sv None (TaskInput_Target x) /\
  inside (within_ResourceReferenceChoice sv) (TaskInput_Target x) /\
  introduced v1_5 sv None (TaskInput_Properties x) /\
  all_in (within_Property sv) (TaskInput_Properties x).
(** /repo/cyclonedx.go:1492-1501 *)
Definition within_TaskOutput (sv : SpecVersion) (x : TaskOutput) : Prop :=
  introduced v1_5 sv None (TaskOutput_Resource x) /\
  inside (within_ResourceReferenceChoice sv) (TaskOutput_Resource x) /\
  introduced never sv None (TaskOutput_Parameters x) /\
  all_in (within_Parameter_t sv) (TaskOutput_Parameters x) /\
  introduced v1_5 sv None (TaskOutput_EnvironmentVars x) /\
  all_in (within_EnvironmentVariableChoice sv) (TaskOutput_EnvironmentVars x) /\
  introduced v1_5 sv None (TaskOutput_Data x) /\
  inside (within_AttachedText sv) (TaskOutput_Data x) /\
  introduced v1_5 sv "" (TaskOutput_Type x) /\
  introduced v1_5 sv None (TaskOutput_Source x) /\
  inside (within_ResourceReferenceChoice sv) (TaskOutput_Source x) /\
  introduced v1_5 sv None (TaskOutput_Target x) /\
  inside (within_ResourceReferenceChoice sv) (TaskOutput_Target x) /\
  introduced v1_5 sv None (TaskOutput_Properties x) /\
  all_in (within_Property sv) (TaskOutput_Properties x).
(** /repo/cyclonedx.go:1521-1534 *)
Definition within_TaskTrigger (sv : SpecVersion) (x : TaskTrigger) : Prop :=
  introduced v1_5 sv "" (TaskTrigger_BOMRef x) /\
  introduced v1_5 sv "" (TaskTrigger_UID x) /\
  introduced v1_5 sv "" (TaskTrigger_Name x) /\
  introduced v1_5 sv "" (TaskTrigger_Description x) /\
  introduced v1_5 sv None (TaskTrigger_ResourceReferences x) /\
  all_in (within_ResourceReferenceChoice sv) (TaskTrigger_ResourceReferences x) /\
  introduced v1_5 sv "" (TaskTrigger_Type x) /\
  introduced v1_5 sv None (TaskTrigger_Event x) /\
  inside (within_Event sv) (TaskTrigger_Event x) /\
  introduced v1_5 sv None (TaskTrigger_Conditions x) /\
  all_in (within_TaskTriggerCondition sv) (TaskTrigger_Conditions x) /\
  introduced v1_5 sv "" (TaskTrigger_TimeActivated x) /\
  introduced v1_5 sv None (TaskTrigger_Inputs x) /\
  all_in (within_TaskInput sv) (TaskTrigger_Inputs x) /\
  introduced v1_5 sv None (TaskTrigger_Outputs x) /\
  all_in (within_TaskOutput sv) (TaskTrigger_Outputs x) /\
  introduced v1_5 sv None (TaskTrigger_Properties x) /\
  all_in (within_Property sv) (TaskTrigger_Properties x).
(** /repo/cyclonedx.go:1477-1480 *)
Definition within_TaskCommand (sv : SpecVersion) (x : TaskCommand) : Prop :=
  introduced v1_5 sv "" (TaskCommand_Executed x) /\
  introduced v1_5 sv None (TaskCommand_Properties x) /\
  all_in (within_Property sv) (TaskCommand_Properties x).
(** /repo/cyclonedx.go:1514-1519 *)
Definition within_TaskStep (sv : SpecVersion) (x : TaskStep) : Prop :=
  introduced v1_5 sv "" (TaskStep_Name x) /\
  introduced v1_5 sv "" (TaskStep_Description x) /\
  introduced v1_5 sv None (TaskStep_Commands x) /\
  all_in (within_TaskCommand sv) (TaskStep_Commands x) /\
  introduced v1_5 sv None (TaskStep_Properties x) /\
  all_in (within_Property sv) (TaskStep_Properties x).
(** /repo/cyclonedx.go:1616-1625 *)
Definition within_Volume (sv : SpecVersion) (x : Volume) : Prop :=
  introduced v1_5 sv "" (Volume_UID x) /\
  introduced v1_5 sv "" (Volume_Name x) /\
  introduced v1_5 sv "" (Volume_Mode x) /\
  introduced v1_5 sv "" (Volume_Path x) /\
  introduced v1_5 sv "" (Volume_SizeAllocated x) /\
  introduced v1_5 sv None (Volume_Persistent x) /\
  introduced v1_5 sv None (Volume_Remote x) /\
  introduced v1_5 sv None (Volume_Properties x) /\
  all_in (within_Property sv) (Volume_Properties x).
(** /repo/cyclonedx.go:1568-1581 *)
Definition within_TaskWorkspace (sv : SpecVersion) (x : TaskWorkspace) : Prop :=
  introduced v1_5 sv "" (TaskWorkspace_BOMRef x) /\
  introduced v1_5 sv "" (TaskWorkspace_UID x) /\
  introduced v1_5 sv "" (TaskWorkspace_Name x) /\
  introduced v1_5 sv None (TaskWorkspace_Aliases x) /\
  introduced v1_5 sv "" (TaskWorkspace_Description x) /\
  introduced v1_5 sv None (TaskWorkspace_ResourceReferences x) /\
  all_in (within_ResourceReferenceChoice sv) (TaskWorkspace_ResourceReferences x) /\
  introduced v1_5 sv "" (TaskWorkspace_AccessMode x) /\
  introduced v1_5 sv "" (TaskWorkspace_MountPath x) /\
  introduced v1_5 sv "" (TaskWorkspace_ManagedDataType x) /\
  introduced v1_5 sv "" (TaskWorkspace_VolumeRequest x) /\
  introduced v1_5 sv None (TaskWorkspace_Volume x) /\
  inside (within_Volume sv) (TaskWorkspace_Volume x) /\
  introduced v1_5 sv None (TaskWorkspace_Properties x) /\
  all_in (within_Property sv) (TaskWorkspace_Properties x).
(** /repo/cyclonedx.go:1459-1475 *)
Definition within_Task (sv : SpecVersion) (x : Task) : Prop :=
  introduced v1_5 sv "" (Task_BOMRef x) /\
  introduced v1_5 sv "" (Task_UID x) /\
  introduced v1_5 sv "" (Task_Name x) /\
  introduced v1_5 sv "" (Task_Description x) /\
  introduced v1_5 sv None (Task_Properties x) /\
  all_in (within_Property sv) (Task_Properties x) /\
  introduced v1_5 sv None (Task_ResourceReferences x) /\
  all_in (within_ResourceReferenceChoice sv) (Task_ResourceReferences x) /\
  introduced v1_5 sv None (Task_TaskTypes x) /\
  introduced v1_5 sv None (Task_Trigger x) /\
  inside (within_TaskTrigger sv) (Task_Trigger x) /\
  introduced v1_5 sv None (Task_Steps x) /\
  all_in (within_TaskStep sv) (Task_Steps x) /\
  introduced v1_5 sv None (Task_Inputs x) /\
  all_in (within_TaskInput sv) (Task_Inputs x) /\
  introduced v1_5 sv None (Task_Outputs x) /\
  all_in (within_TaskOutput sv) (Task_Outputs x) /\
  introduced v1_5 sv "" (Task_TimeStart x) /\
  introduced v1_5 sv "" (Task_TimeEnd x) /\
  introduced v1_5 sv None (Task_Workspaces x) /\
  all_in (within_TaskWorkspace sv) (Task_Workspaces x) /\
  introduced v1_5 sv None (Task_RuntimeTopology x) /\
  all_in (within_Dependency sv) (Task_RuntimeTopology x).
(** /repo/cyclonedx.go:1689-1707 *)
Definition within_Workflow (sv : SpecVersion) (x : Workflow) : Prop :=
  introduced v1_5 sv "" (Workflow_BOMRef x) /\
  introduced v1_5 sv "" (Workflow_UID x) /\
  introduced v1_5 sv "" (Workflow_Name x) /\
  introduced v1_5 sv "" (Workflow_Description x) /\
  introduced v1_5 sv None (Workflow_ResourceReferences x) /\
  all_in (within_ResourceReferenceChoice sv) (Workflow_ResourceReferences x) /\
  introduced v1_5 sv None (Workflow_Tasks x) /\
  all_in (within_Task sv) (Workflow_Tasks x) /\
  introduced v1_5 sv None (Workflow_TaskDependencies x) /\
  all_in (within_Dependency sv) (Workflow_TaskDependencies x) /\
  introduced v1_5 sv None (Workflow_TaskTypes x) /\
  introduced v1_5 sv None (Workflow_Trigger x) /\
  inside (within_TaskTrigger sv) (Workflow_Trigger x) /\
  introduced v1_5 sv None (Workflow_Steps x) /\
  all_in (within_TaskStep sv) (Workflow_Steps x) /\
  introduced v1_5 sv None (Workflow_Inputs x) /\
  all_in (within_TaskInput sv) (Workflow_Inputs x) /\
  introduced v1_5 sv None (Workflow_Outputs x) /\
  all_in (within_TaskOutput sv) (Workflow_Outputs x) /\
  introduced v1_5 sv "" (Workflow_TimeStart x) /\
  introduced v1_5 sv "" (Workflow_TimeEnd x) /\
  introduced v1_5 sv None (Workflow_Workspaces x) /\
  all_in (within_TaskWorkspace sv) (Workflow_Workspaces x) /\
  introduced v1_5 sv None (Workflow_RuntimeTopology x) /\
  all_in (within_Dependency sv) (Workflow_RuntimeTopology x) /\
  introduced v1_5 sv None (Workflow_Properties x) /\
  all_in (within_Property sv) (Workflow_Properties x).
(** /repo/cyclonedx.go:800-806 *)
Definition within_Formula (sv : SpecVersion) (x : Formula) : Prop :=
  introduced v1_5 sv "" (Formula_BOMRef x) /\
  introduced v1_5 sv None (Formula_Components x) /\
  all_in (within_Component sv) (Formula_Components x) /\
  introduced v1_5 sv None (Formula_Services x) /\
  all_in (within_Service sv) (Formula_Services x) /\
  introduced v1_5 sv None (Formula_Workflows x) /\
  all_in (within_Workflow sv) (Formula_Workflows x) /\
  introduced v1_5 sv None (Formula_Properties x) /\
  all_in (within_Property sv) (Formula_Properties x).
(** /repo/cyclonedx.go:193-203 *)
Definition within_Claim (sv : SpecVersion) (x : Claim) : Prop :=
  introduced v1_6 sv "" (Claim_BOMRef x) /\
  introduced v1_6 sv "" (Claim_Target x) /\
  introduced v1_6 sv "" (Claim_Predicate x) /\
  introduced v1_6 sv None (Claim_MitigationStrategies x) /\
  introduced v1_6 sv "" (Claim_Reasoning x) /\
  introduced v1_6 sv None (Claim_Evidence x) /\
  introduced v1_6 sv None (Claim_CounterEvidence x) /\
  introduced v1_6 sv None (Claim_ExternalReferences x) /\
  all_in (within_ExternalReference sv) (Claim_ExternalReferences x) /\
  introduced v1_6 sv None (Claim_Signature x) /\
  inside (within_JSFSignature sv) (Claim_Signature x).
(** /repo/cyclonedx.go:619-622 *)
Definition within_EvidenceDataContents (sv : SpecVersion) (x : EvidenceDataContents) : Prop :=
  introduced v1_6 sv None (EvidenceDataContents_Attachment x) /\
  inside (within_AttachedText sv) (EvidenceDataContents_Attachment x) /\
  introduced v1_6 sv "" (EvidenceDataContents_URL x).
(** /repo/cyclonedx.go:611-617 *)
Definition within_EvidenceData (sv : SpecVersion) (x : EvidenceData) : Prop :=
  introduced v1_6 sv "" (EvidenceData_Name x) /\
  introduced v1_6 sv None (EvidenceData_Contents x) /\
  inside (within_EvidenceDataContents sv) (EvidenceData_Contents x) /\
  introduced v1_6 sv None (EvidenceData_Classification x) /\
  inside (within_DataClassification sv) (EvidenceData_Classification x) /\
  introduced v1_6 sv None (EvidenceData_SensitiveData x) /\
  introduced v1_6 sv None (EvidenceData_Governance x) /\
  inside (within_DataGovernance sv) (EvidenceData_Governance x).
(** /repo/cyclonedx.go:586-596 *)
Definition within_DeclarationEvidence (sv : SpecVersion) (x : DeclarationEvidence) : Prop :=
  introduced v1_6 sv "" (DeclarationEvidence_BOMRef x) /\
  introduced v1_6 sv "" (DeclarationEvidence_PropertyName x) /\
  introduced v1_6 sv "" (DeclarationEvidence_Description x) /\
  introduced v1_6 sv None (DeclarationEvidence_Data x) /\
  all_in (within_EvidenceData sv) (DeclarationEvidence_Data x) /\
  introduced v1_6 sv "" (DeclarationEvidence_Created x) /\
  introduced v1_6 sv "" (DeclarationEvidence_Expires x) /\
  introduced v1_6 sv None (DeclarationEvidence_Author x) /\
  inside (within_OrganizationalContact sv) (DeclarationEvidence_Author x) /\
  introduced v1_6 sv None (DeclarationEvidence_Reviewer x) /\
  inside (within_OrganizationalContact sv) (DeclarationEvidence_Reviewer x) /\
  introduced v1_6 sv None (DeclarationEvidence_Signature x) /\
  inside (within_JSFSignature sv) (DeclarationEvidence_Signature x).
(** /repo/cyclonedx.go:624-628 *)
Definition within_Targets (sv : SpecVersion) (x : Targets) : Prop :=
  introduced v1_6 sv None (Targets_Organizations x) /\
  all_in (within_OrganizationalEntity sv) (Targets_Organizations x) /\
  introduced v1_6 sv None (Targets_Components x) /\
  all_in (within_Component sv) (Targets_Components x) /\
  introduced v1_6 sv None (Targets_Services x) /\
  all_in (within_Service sv) (Targets_Services x).
(** /repo/cyclonedx.go:636-642 *)
Definition within_Signatory (sv : SpecVersion) (x : Signatory) : Prop :=
  introduced v1_6 sv "" (Signatory_Name x) /\
  introduced v1_6 sv "" (Signatory_Role x) /\
  introduced v1_6 sv None (Signatory_Signature x) /\
  inside (within_JSFSignature sv) (Signatory_Signature x) /\
  introduced v1_6 sv None (Signatory_Organization x) /\
  inside (within_OrganizationalEntity sv) (Signatory_Organization x) /\
  introduced v1_6 sv None (Signatory_ExternalReference x) /\
  inside (within_ExternalReference sv) (Signatory_ExternalReference x).
(** /repo/cyclonedx.go:630-634 *)
Definition within_Affirmation (sv : SpecVersion) (x : Affirmation) : Prop :=
  introduced v1_6 sv "" (Affirmation_Statement x) /\
  introduced v1_6 sv None (Affirmation_Signatories x) /\
  all_in (within_Signatory sv) (Affirmation_Signatories x) /\
  introduced v1_6 sv None (Affirmation_Signature x) /\
  inside (within_JSFSignature sv) (Affirmation_Signature x).
(** /repo/cyclonedx.go:576-584 *)
Definition within_Declarations (sv : SpecVersion) (x : Declarations) : Prop :=
  introduced v1_6 sv None (Declarations_Assessors x) /\
  all_in (within_Assessor sv) (Declarations_Assessors x) /\
  introduced v1_6 sv None (Declarations_Attestations x) /\
  all_in (within_Attestation sv) (Declarations_Attestations x) /\
  introduced v1_6 sv None (Declarations_Claims x) /\
  all_in (within_Claim sv) (Declarations_Claims x) /\
  introduced v1_6 sv None (Declarations_Evidence x) /\
  all_in (within_DeclarationEvidence sv) (Declarations_Evidence x) /\
  introduced v1_6 sv None (Declarations_Targets x) /\
  inside (within_Targets sv) (Declarations_Targets x) /\
  introduced v1_6 sv None (Declarations_Affirmation x) /\
  inside (within_Affirmation sv) (Declarations_Affirmation x) /\
  introduced v1_6 sv None (Declarations_Signature x) /\
  inside (within_JSFSignature sv) (Declarations_Signature x).
(** /repo/cyclonedx.go:1429-1439 *)
Definition within_StandardRequirement (sv : SpecVersion) (x : StandardRequirement) : Prop :=
  introduced v1_6 sv "" (StandardRequirement_BOMRef x) /\
  introduced v1_6 sv "" (StandardRequirement_Identifier x) /\
  introduced v1_6 sv "" (StandardRequirement_Title x) /\
  introduced v1_6 sv "" (StandardRequirement_Text x) /\
  introduced v1_6 sv None (StandardRequirement_Descriptions x) /\
  introduced v1_6 sv None (StandardRequirement_OpenCRE x) /\
  introduced v1_6 sv "" (StandardRequirement_Parent x) /\
  introduced v1_6 sv None (StandardRequirement_Properties x) /\
  all_in (within_Property sv) (StandardRequirement_Properties x) /\
  introduced v1_6 sv None (StandardRequirement_ExternalReferences x) /\
  all_in (within_ExternalReference sv) (StandardRequirement_ExternalReferences x).
(** /repo/cyclonedx.go:1441-1447 *)
Definition within_StandardLevel (sv : SpecVersion) (x : StandardLevel) : Prop :=
  introduced v1_6 sv "" (StandardLevel_BOMRef x) /\
  introduced v1_6 sv "" (StandardLevel_Identifier x) /\
  introduced v1_6 sv "" (StandardLevel_Title x) /\
  introduced v1_6 sv "" (StandardLevel_Description x) /\
  introduced v1_6 sv None (StandardLevel_Requirements x).
(** /repo/cyclonedx.go:1416-1427 *)
Definition within_StandardDefinition (sv : SpecVersion) (x : StandardDefinition) : Prop :=
  introduced v1_6 sv "" (StandardDefinition_BOMRef x) /\
  introduced v1_6 sv "" (StandardDefinition_Name x) /\
  introduced v1_6 sv "" (StandardDefinition_Version x) /\
  introduced v1_6 sv "" (StandardDefinition_Description x) /\
  introduced v1_6 sv "" (StandardDefinition_Owner x) /\
  introduced v1_6 sv None (StandardDefinition_Requirements x) /\
  all_in (within_StandardRequirement sv) (StandardDefinition_Requirements x) /\
  introduced v1_6 sv None (StandardDefinition_Levels x) /\
  all_in (within_StandardLevel sv) (StandardDefinition_Levels x) /\
  introduced v1_6 sv None (StandardDefinition_ExternalReferences x) /\
  all_in (within_ExternalReference sv) (StandardDefinition_ExternalReferences x) /\
  introduced v1_6 sv None (StandardDefinition_Signature x) /\
  inside (within_JSFSignature sv) (StandardDefinition_Signature x).
(** /repo/cyclonedx.go:1802-1806 *)
Definition within_PriorityApplication (sv : SpecVersion) (x : PriorityApplication) : Prop :=
  introduced v1_7 sv "" (PriorityApplication_ApplicationNumber x) /\
  introduced v1_7 sv "" (PriorityApplication_Jurisdiction x) /\
  introduced v1_7 sv "" (PriorityApplication_FilingDate x).
(** /repo/cyclonedx.go:1743-1758 *)
Definition within_Patent (sv : SpecVersion) (x : Patent) : Prop :=
  introduced v1_7 sv "" (Patent_BOMRef x) /\
  introduced v1_7 sv "" (Patent_PatentNumber x) /\
  introduced v1_7 sv "" (Patent_ApplicationNumber x) /\
  introduced v1_7 sv "" (Patent_Jurisdiction x) /\
  introduced v1_7 sv None (Patent_PriorityApplication x) /\
  inside (within_PriorityApplication sv) (Patent_PriorityApplication x) /\
  introduced v1_7 sv "" (Patent_PublicationNumber x) /\
  introduced v1_7 sv "" (Patent_Title x) /\
  introduced v1_7 sv "" (Patent_Abstract x) /\
  introduced v1_7 sv "" (Patent_FilingDate x) /\
  introduced v1_7 sv "" (Patent_GrantDate x) /\
  introduced v1_7 sv "" (Patent_PatentExpirationDate x) /\
  introduced v1_7 sv "" (Patent_PatentLegalStatus x) /\
  introduced v1_7 sv None (Patent_PatentAssignee x) /\
  all_in (within_OrganizationalEntityOrContact sv) (Patent_PatentAssignee x) /\
  introduced v1_7 sv None (Patent_ExternalReferences x) /\
  all_in (within_ExternalReference sv) (Patent_ExternalReferences x).
(** /repo/cyclonedx.go:1761-1767 *)
Definition within_PatentFamily (sv : SpecVersion) (x : PatentFamily) : Prop :=
  introduced v1_7 sv "" (PatentFamily_BOMRef x) /\
  introduced v1_7 sv "" (PatentFamily_FamilyID x) /\
  introduced v1_7 sv None (PatentFamily_PriorityApplication x) /\
  inside (within_PriorityApplication sv) (PatentFamily_PriorityApplication x) /\
  introduced v1_7 sv None (PatentFamily_Members x) /\
  introduced v1_7 sv None (PatentFamily_ExternalReferences x) /\
  all_in (within_ExternalReference sv) (PatentFamily_ExternalReferences x).
(** /repo/cyclonedx.go:606-609 *)
Definition within_PatentChoice (sv : SpecVersion) (x : PatentChoice) : Prop :=
  introduced v1_7 sv None (PatentChoice_Patent x) /\
  inside (within_Patent sv) (PatentChoice_Patent x) /\
  introduced v1_7 sv None (PatentChoice_PatentFamily x) /\
  inside (within_PatentFamily sv) (PatentChoice_PatentFamily x).
(** /repo/cyclonedx.go:598-601 *)
Definition within_Definitions (sv : SpecVersion) (x : Definitions) : Prop :=
  introduced v1_6 sv None (Definitions_Standards x) /\
  all_in (within_StandardDefinition sv) (Definitions_Standards x) /\
  introduced v1_7 sv None (Definitions_Patents x) /\
  all_in (within_PatentChoice sv) (Definitions_Patents x).
(** /repo/cyclonedx.go:1712-1721 *)
Definition within_Citation (sv : SpecVersion) (x : Citation) : Prop :=
  introduced v1_7 sv "" (Citation_BOMRef x) /\
  introduced v1_7 sv None (Citation_Pointers x) /\
  introduced v1_7 sv None (Citation_Expressions x) /\
  introduced v1_7 sv "" (Citation_Timestamp x) /\
  introduced v1_7 sv None (Citation_AttributedTo x) /\
  introduced v1_7 sv "" (Citation_Process x) /\
  introduced v1_7 sv "" (Citation_Note x) /\
  introduced v1_7 sv None (Citation_Signature x) /\
  inside (within_JSFSignature sv) (Citation_Signature x).
(** /repo/cyclonedx.go:105-131 *)
Definition within_BOM (sv : SpecVersion) (x : BOM) : Prop :=
  introduced v1_1 sv "" (BOM_SerialNumber x) /\
  introduced v1_2 sv None (BOM_Metadata x) /\
  inside (within_Metadata sv) (BOM_Metadata x) /\
  all_in (within_Component sv) (BOM_Components x) /\
  introduced v1_2 sv None (BOM_Services x) /\
  all_in (within_Service sv) (BOM_Services x) /\
  introduced v1_1 sv None (BOM_ExternalReferences x) /\
  all_in (within_ExternalReference sv) (BOM_ExternalReferences x) /\
  introduced v1_2 sv None (BOM_Dependencies x) /\
  all_in (within_Dependency sv) (BOM_Dependencies x) /\
  introduced v1_3 sv None (BOM_Compositions x) /\
  all_in (within_Composition sv) (BOM_Compositions x) /\
  introduced v1_3 sv None (BOM_Properties x) /\
  all_in (within_Property sv) (BOM_Properties x) /\
  introduced v1_4 sv None (BOM_Vulnerabilities x) /\
  all_in (within_Vulnerability sv) (BOM_Vulnerabilities x) /\
  introduced v1_5 sv None (BOM_Annotations x) /\
  all_in (within_Annotation sv) (BOM_Annotations x) /\
  introduced v1_5 sv None (BOM_Formulation x) /\
  all_in (within_Formula sv) (BOM_Formulation x) /\
  introduced v1_6 sv None (BOM_Declarations x) /\
  inside (within_Declarations sv) (BOM_Declarations x) /\
  introduced v1_6 sv None (BOM_Definitions x) /\
  inside (within_Definitions sv) (BOM_Definitions x) /\
  introduced v1_7 sv None (BOM_Citations x) /\
  all_in (within_Citation sv) (BOM_Citations x) /\
  introduced v1_4 sv None (BOM_Signature x) /\
  inside (within_JSFSignature sv) (BOM_Signature x).
