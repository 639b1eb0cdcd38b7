(** Model of /repo/convert.go, function by function.

    A Go function that mutates the structure behind a pointer is a function
    returning the new structure. This is faithful because [convert] only ever runs
    on the tree freshly allocated by [copy] (/repo/convert.go:24-30), in which no
    two pointers are equal; HeapModel.v discharges the aliasing side. A nil check
    guarding a mutation is [option_map]. *)
From Verif Require Import Base Types Consts Version.
Local Open Scope string_scope.

Declare Scope go_scope.
Notation "x |> f" := (f x) (at level 61, left associativity, only parsing) : go_scope.
Local Open Scope go_scope.

Definition sv_lt (a b : SpecVersion) : bool := (a <? b)%Z.
Definition sv_ge (a b : SpecVersion) : bool := (b <=? a)%Z.

(** [if cond { x = f(x) }] *)
Definition when {A} (c : bool) (f : A -> A) (x : A) : A := if c then f x else x.

(** [if cond(x) { x = f(x) }] *)
Definition when_c {A} (c : A -> bool) (f : A -> A) (x : A) : A := if c x then f x else x.

(** [for i := range *p { f(&( *p)[i]) }] guarded by [p != nil]. *)
Definition each {A} (f : A -> A) (p : ptr (slice A)) : ptr (slice A) :=
  option_map (option_map (map f)) p.

(** [x.F.G = v] guarded by [x.F != nil]. *)
Definition behind {A} (f : A -> A) (p : ptr A) : ptr A := option_map f p.

(** The elements of a slice; a nil slice has none. *)
Definition elems {A} (s : slice A) : list A := match s with Some l => l | None => [] end.

(** [if len(l) == 0 then nil else l] *)
Definition nil_if_empty {A} (l : list A) : slice A := match l with [] => None | _ => Some l end.

Definition one_of (s : string) (l : list string) : bool := existsb (str_eqb s) l.

(** ** Support tables *)

(** /repo/convert.go:749-762 *)
Definition supportsComponentType (sv : SpecVersion) (t : ComponentType) : bool :=
  if one_of t [ComponentTypeApplication; ComponentTypeDevice; ComponentTypeFramework; ComponentTypeLibrary; ComponentTypeOS]
  then sv_ge sv SpecVersion1_0
  else if one_of t [ComponentTypeFile] then sv_ge sv SpecVersion1_1
  else if one_of t [ComponentTypeContainer; ComponentTypeFirmware] then sv_ge sv SpecVersion1_2
  else if one_of t [ComponentTypeData; ComponentTypeDeviceDriver; ComponentTypeMachineLearningModel; ComponentTypePlatform]
  then sv_ge sv SpecVersion1_5
  else false.

(** /repo/convert.go:764-772 *)
Definition supportsCompositionAggregate (sv : SpecVersion) (ca : CompositionAggregate) : bool :=
  if one_of ca [CompositionAggregateIncompleteFirstPartyOpenSourceOnly; CompositionAggregateIncompleteFirstPartyProprietaryOnly;
                CompositionAggregateIncompleteThirdPartyOpenSourceOnly; CompositionAggregateIncompleteThirdPartyProprietaryOnly]
  then sv_ge sv SpecVersion1_5
  else sv_ge sv SpecVersion1_3.

(** /repo/convert.go:774-803 *)
Definition supportsExternalReferenceType (sv : SpecVersion) (ert : ExternalReferenceType) : bool :=
  if one_of ert
       [ERTypeAdversaryModel; ERTypeAttestation; ERTypeCertificationReport; ERTypeCodifiedInfrastructure;
        ERTypeComponentAnalysisReport; ERTypeConfiguration; ERTypeDistributionIntake; ERTypeDynamicAnalysisReport;
        ERTypeEvidence; ERTypeExploitabilityStatement; ERTypeFormulation; ERTypeLog; ERTypeMaturityReport;
        ERTypeModelCard; ERTypePentestReport; ERTypeQualityMetrics; ERTypeRiskAssessment;
        ERTypeRuntimeAnalysisReport; ERTypeStaticAnalysisReport; ERTypeThreatModel; ERTypeVulnerabilityAssertion]
  then sv_ge sv SpecVersion1_5
  else if one_of ert [ERTypePatent; ERTypePatentFamily; ERTypePatentAssertion; ERTypeCitation]
  then sv_ge sv SpecVersion1_7
  else sv_ge sv SpecVersion1_1.

(** /repo/convert.go:805-811 *)
Definition supportsCryptoPrimitive (sv : SpecVersion) (p : CryptoPrimitive) : bool :=
  if one_of p [CryptoPrimitiveKeyWrap] then sv_ge sv SpecVersion1_7 else sv_ge sv SpecVersion1_6.

(** /repo/convert.go:813-821 *)
Definition supportsCryptoProtocolType (sv : SpecVersion) (pt : CryptoProtocolType) : bool :=
  if one_of pt [CryptoProtocolTypeDTLS; CryptoProtocolTypeQUIC; CryptoProtocolTypeEAPAKA;
                CryptoProtocolTypeEAPAKAPrime; CryptoProtocolTypePRINS; CryptoProtocolType5GAKA]
  then sv_ge sv SpecVersion1_7
  else sv_ge sv SpecVersion1_6.

(** /repo/convert.go:823-834 *)
Definition supportsHashAlgorithm (sv : SpecVersion) (a : HashAlgorithm) : bool :=
  if one_of a [HashAlgoMD5; HashAlgoSHA1; HashAlgoSHA256; HashAlgoSHA384; HashAlgoSHA512; HashAlgoSHA3_256; HashAlgoSHA3_512]
  then sv_ge sv SpecVersion1_0
  else if one_of a [HashAlgoSHA3_384; HashAlgoBlake2b_256; HashAlgoBlake2b_384; HashAlgoBlake2b_512; HashAlgoBlake3]
  then sv_ge sv SpecVersion1_2
  else if one_of a [HashAlgoStreebog256; HashAlgoStreebog512] then sv_ge sv SpecVersion1_7
  else false.

(** /repo/convert.go:836-845 *)
Definition supportsScope (sv : SpecVersion) (s : Scope) : bool :=
  if one_of s [ScopeRequired; ScopeOptional] then sv_ge sv SpecVersion1_0
  else if one_of s [ScopeExcluded] then sv_ge sv SpecVersion1_2
  else false.

(** /repo/convert.go:847-856 *)
Definition supportsScoringMethod (sv : SpecVersion) (m : ScoringMethod) : bool :=
  if one_of m [ScoringMethodCVSSv2; ScoringMethodCVSSv3; ScoringMethodCVSSv31; ScoringMethodOWASP; ScoringMethodOther]
  then sv_ge sv SpecVersion1_4
  else if one_of m [ScoringMethodCVSSv4; ScoringMethodSSVC] then sv_ge sv SpecVersion1_5
  else false.

(** ** Leaf converters *)

(** /repo/convert.go:431-439 *)
Definition convertOrganizationalContact (sv : SpecVersion) (c : OrganizationalContact) : OrganizationalContact :=
  c |> when (sv_lt sv SpecVersion1_5) (set_OrganizationalContact_BOMRef "").

(** /repo/convert.go:411-429 *)
Definition convertOrganizationalEntity (sv : SpecVersion) (o : OrganizationalEntity) : OrganizationalEntity :=
  o |> when (sv_lt sv SpecVersion1_5) (fun o =>
         o |> set_OrganizationalEntity_BOMRef ""
           |> over_OrganizationalEntity_Contact (each (convertOrganizationalContact sv)))
    |> when (sv_lt sv SpecVersion1_6) (set_OrganizationalEntity_Address None).

(** /repo/convert.go:271-286 *)
Definition convertDataClassifications (sv : SpecVersion) (p : ptr (slice DataClassification)) : ptr (slice DataClassification) :=
  p |> when (sv_lt sv SpecVersion1_6) (each (fun d =>
         d |> set_DataClassification_Name ""
           |> set_DataClassification_Description ""
           |> set_DataClassification_Governance None
           |> set_DataClassification_Source None
           |> set_DataClassification_Destination None)).

(** /repo/convert.go:295-307, the loop body *)
Definition convertExternalReference (sv : SpecVersion) (r : ExternalReference) : ExternalReference :=
  r |> when_c (fun r => negb (supportsExternalReferenceType sv (ExternalReference_Type r))) (set_ExternalReference_Type ERTypeOther)
    |> when (sv_lt sv SpecVersion1_3) (set_ExternalReference_Hashes None)
    |> when (sv_lt sv SpecVersion1_7) (set_ExternalReference_Properties None).

(** /repo/convert.go:289-309 *)
Definition convertExternalReferences (sv : SpecVersion) (p : ptr (slice ExternalReference)) : ptr (slice ExternalReference) :=
  each (convertExternalReference sv) p.

(** /repo/convert.go:313-331. The pointer stays; the slice behind it is replaced
    by the supported hashes, or by nil when there are none. *)
Definition convertHashes (sv : SpecVersion) (p : ptr (slice Hash)) : ptr (slice Hash) :=
  option_map (fun s => nil_if_empty (filter (fun h => supportsHashAlgorithm sv (Hash_Algorithm h)) (elems s))) p.

(** /repo/convert.go:344-352, the loop body for < 1.1 *)
Definition convertLicenseChoice_1_0 (choice : LicenseChoice) : LicenseChoice :=
  let license :=
    match LicenseChoice_License choice with
    | None => None
    | Some l =>
        if (str_eqb (License_ID l) "" && str_eqb (License_Name l) "")%bool then None
        else Some (l |> set_License_Text None |> set_License_URL "")
    end in
  choice |> set_LicenseChoice_License license |> set_LicenseChoice_Expression "".

(** /repo/convert.go:341-362 *)
Definition convertLicenses_1_0 (s : slice LicenseChoice) : slice LicenseChoice :=
  nil_if_empty
    (filter (fun c => match LicenseChoice_License c with Some _ => true | None => false end)
            (map convertLicenseChoice_1_0 (elems s))).

(** /repo/convert.go:366-373 *)
Definition convertLicenseChoice_1_4 (choice : LicenseChoice) : LicenseChoice :=
  over_LicenseChoice_License
    (behind (fun l => l |> set_License_BOMRef "" |> set_License_Licensing None |> set_License_Properties None)) choice.

(** /repo/convert.go:389-397 *)
Definition convertParty (sv : SpecVersion) (p : OrganizationalEntityOrContact) : OrganizationalEntityOrContact :=
  over_OrganizationalEntityOrContact_Organization (behind (convertOrganizationalEntity sv)) p.

Definition convertLicensing (sv : SpecVersion) (l : Licensing) : Licensing :=
  l |> over_Licensing_Licensor (behind (convertParty sv))
    |> over_Licensing_Licensee (behind (convertParty sv))
    |> over_Licensing_Purchaser (behind (convertParty sv)).

(** /repo/convert.go:377-398 *)
Definition convertLicenseChoice_1_5 (sv : SpecVersion) (choice : LicenseChoice) : LicenseChoice :=
  over_LicenseChoice_License
    (behind (fun l => l |> set_License_Acknowledgement ""
                        |> over_License_Licensing (behind (convertLicensing sv)))) choice.

(** /repo/convert.go:402-407 *)
Definition convertLicenseChoice_1_6 (choice : LicenseChoice) : LicenseChoice :=
  choice |> set_LicenseChoice_ExpressionDetails None
         |> set_LicenseChoice_Licensing None
         |> set_LicenseChoice_Properties None.

(** /repo/convert.go:335-409 *)
Definition convertLicenses (sv : SpecVersion) (p : ptr Licenses) : ptr Licenses :=
  option_map (fun s : slice LicenseChoice =>
    s |> when (sv_lt sv SpecVersion1_1) convertLicenses_1_0
      |> when (sv_lt sv SpecVersion1_5) (option_map (map convertLicenseChoice_1_4))
      |> when (sv_lt sv SpecVersion1_6) (option_map (map (convertLicenseChoice_1_5 sv)))
      |> when (sv_lt sv SpecVersion1_7) (option_map (map convertLicenseChoice_1_6))) p.

(** ** Components *)

(** /repo/convert.go:225-233 *)
Definition convertIdentityChoice_1_5 (p : ptr EvidenceIdentityChoice) : ptr EvidenceIdentityChoice :=
  match p with
  | Some i =>
      match EvidenceIdentityChoice_Identities i with
      | Some ids =>
          match elems ids with
          | first :: _ => Some (mkEvidenceIdentityChoice (Some first) None)
          | [] => None
          end
      | None => Some i
      end
  | None => None
  end.

(** /repo/convert.go:234-237 *)
Definition dropConcludedValue (i : EvidenceIdentityChoice) : EvidenceIdentityChoice :=
  over_EvidenceIdentityChoice_Identity (behind (set_EvidenceIdentity_ConcludedValue "")) i.

(** /repo/convert.go:205-251 *)
Definition convertEvidence (sv : SpecVersion) (p : ptr Evidence) : ptr Evidence :=
  match p with
  | None => None
  | Some e =>
      if sv_lt sv SpecVersion1_3 then None
      else if sv_lt sv SpecVersion1_5 then
        Some (e |> set_Evidence_Identity None |> set_Evidence_Occurrences None |> set_Evidence_Callstack None)
      else
        Some (e |> when (sv_lt sv SpecVersion1_6) (fun e =>
                     e |> over_Evidence_Identity convertIdentityChoice_1_5
                       |> over_Evidence_Identity (behind dropConcludedValue)
                       |> over_Evidence_Occurrences (each (fun o => o |> set_EvidenceOccurrence_Line None
                                               |> set_EvidenceOccurrence_Offset None
                                               |> set_EvidenceOccurrence_Symbol ""
                                               |> set_EvidenceOccurrence_AdditionalContext "")))
                |> over_Evidence_Licenses (convertLicenses sv))
  end.

(** /repo/convert.go:441-451 *)
Definition convertModelCard (sv : SpecVersion) (p : ptr MLModelCard) : ptr MLModelCard :=
  behind (when (sv_lt sv SpecVersion1_6) (over_MLModelCard_Considerations (behind (set_MLModelCardConsiderations_EnvironmentalConsiderations None)))) p.

(** /repo/convert.go:459-465 *)
Definition convertAlgorithmProperties (sv : SpecVersion) (a : CryptoAlgorithmProperties) : CryptoAlgorithmProperties :=
  a |> when (sv_lt sv SpecVersion1_7) (fun a =>
         a |> set_CryptoAlgorithmProperties_AlgorithmFamily "" |> set_CryptoAlgorithmProperties_EllipticCurve "")
    |> when_c (fun a => negb (supportsCryptoPrimitive sv (CryptoAlgorithmProperties_Primitive a))) (set_CryptoAlgorithmProperties_Primitive "").

(** /repo/convert.go:473-485 *)
Definition convertCertificateProperties (sv : SpecVersion) (c : CertificateProperties) : CertificateProperties :=
  c |> when (sv_lt sv SpecVersion1_7) (fun c =>
         c |> set_CertificateProperties_SerialNumber ""
           |> set_CertificateProperties_CertificateFileExtension ""
           |> set_CertificateProperties_Fingerprint None
           |> set_CertificateProperties_CertificateState None
           |> set_CertificateProperties_CertificateExtensions None
           |> set_CertificateProperties_RelatedCryptographicAssets None
           |> set_CertificateProperties_CreationDate ""
           |> set_CertificateProperties_ActivationDate ""
           |> set_CertificateProperties_DeactivationDate ""
           |> set_CertificateProperties_RevocationDate ""
           |> set_CertificateProperties_DestructionDate "").

(** /repo/convert.go:489-492 *)
Definition convertRelatedCryptoMaterial (sv : SpecVersion) (r : RelatedCryptoMaterialProperties) : RelatedCryptoMaterialProperties :=
  r |> when (sv_lt sv SpecVersion1_7) (fun r =>
         r |> set_RelatedCryptoMaterialProperties_Fingerprint None
           |> set_RelatedCryptoMaterialProperties_RelatedCryptographicAssets None).

(** /repo/convert.go:502-506 *)
Definition convertCipherSuite (sv : SpecVersion) (c : CipherSuite) : CipherSuite :=
  c |> when (sv_lt sv SpecVersion1_7) (fun c =>
         c |> set_CipherSuite_TLSGroups None |> set_CipherSuite_TLSSignatureSchemes None).

(** /repo/convert.go:468-470 *)
Definition convertProtocolType (sv : SpecVersion) (p : CryptoProtocolProperties) : CryptoProtocolProperties :=
  when_c (fun p => negb (supportsCryptoProtocolType sv (CryptoProtocolProperties_Type p)))
         (set_CryptoProtocolProperties_Type "") p.

(** /repo/convert.go:496-508 *)
Definition convertProtocolProperties (sv : SpecVersion) (p : CryptoProtocolProperties) : CryptoProtocolProperties :=
  p |> when (sv_lt sv SpecVersion1_7) (set_CryptoProtocolProperties_RelatedCryptographicAssets None)
    |> over_CryptoProtocolProperties_CipherSuites (each (convertCipherSuite sv)).

(** /repo/convert.go:453-510 *)
Definition convertCryptoProperties (sv : SpecVersion) (p : ptr CryptoProperties) : ptr CryptoProperties :=
  behind (fun cp =>
    cp |> over_CryptoProperties_AlgorithmProperties (behind (convertAlgorithmProperties sv))
       |> over_CryptoProperties_ProtocolProperties (behind (convertProtocolType sv))
       |> over_CryptoProperties_CertificateProperties (behind (convertCertificateProperties sv))
       |> over_CryptoProperties_RelatedCryptoMaterialProperties (behind (convertRelatedCryptoMaterial sv))
       |> over_CryptoProperties_ProtocolProperties (behind (convertProtocolProperties sv))) p.

(** /repo/convert.go:136-203 *)
Definition componentConverter (sv : SpecVersion) (c : Component) : Component :=
  c |> when (sv_lt sv SpecVersion1_1) (fun c =>
         c |> set_Component_BOMRef ""
           |> set_Component_ExternalReferences None
           |> over_Component_Modified (fun m => match m with None => Some false | Some _ => m end)
           |> set_Component_Pedigree None)
    |> when (sv_lt sv SpecVersion1_2) (fun c =>
         c |> set_Component_Author ""
           |> set_Component_MIMEType ""
           |> over_Component_Pedigree (behind (set_Pedigree_Patches None))
           |> set_Component_Supplier None
           |> set_Component_SWID None)
    |> when (sv_lt sv SpecVersion1_3) (set_Component_Properties None)
    |> when (sv_lt sv SpecVersion1_4) (fun c =>
         c |> set_Component_ReleaseNotes None
           |> when_c (fun c => str_eqb (Component_Version c) "") (set_Component_Version "0.0.0"))
    |> when (sv_lt sv SpecVersion1_5) (fun c =>
         c |> set_Component_ModelCard None
           |> set_Component_Data None)
    |> when (sv_lt sv SpecVersion1_6) (fun c =>
         c |> set_Component_SWHID None
           |> set_Component_OmniborID None
           |> set_Component_Manufacturer None
           |> set_Component_Authors None
           |> set_Component_Tags None
           |> set_Component_CryptoProperties None)
    |> when (sv_lt sv SpecVersion1_7) (fun c =>
         c |> set_Component_IsExternal None
           |> set_Component_PatentAssertions None
           |> set_Component_VersionRange "")
    |> when_c (fun c => negb (supportsComponentType sv (Component_Type c))) (set_Component_Type ComponentTypeApplication)
    |> over_Component_ExternalReferences (convertExternalReferences sv)
    |> over_Component_Hashes (convertHashes sv)
    |> over_Component_Licenses (convertLicenses sv)
    |> over_Component_Evidence (convertEvidence sv)
    |> over_Component_ModelCard (convertModelCard sv)
    |> over_Component_CryptoProperties (convertCryptoProperties sv)
    |> when_c (fun c => negb (supportsScope sv (Component_Scope c))) (set_Component_Scope "").

(** Apply [f] to the component lists of a pedigree. *)
Definition map_pedigree {C} (f : C -> C) (p : Pedigree_ C) : Pedigree_ C :=
  mkPedigree (each f (Pedigree_Ancestors p)) (each f (Pedigree_Descendants p)) (each f (Pedigree_Variants p))
             (Pedigree_Commits p) (Pedigree_Patches p) (Pedigree_Notes p).

(** /repo/convert.go:711-732: everything recurseComponent does after calling f:
    visit the nested components, then those of the pedigree. *)
Definition descendComponent (g : Component -> Component) (c : Component) : Component :=
  c |> over_Component_Components (each g)
    |> over_Component_Pedigree (behind (map_pedigree g)).

(** /repo/convert.go:704-733 with f = componentConverter sv. To be accepted as a
    structural recursion the children are converted before the component itself;
    [recurseComponent_unfold] (ConvertProofs.v) proves the order of the Go code:
    recurseComponent c = descendComponent recurseComponent (componentConverter c). *)
Fixpoint recurseComponent (sv : SpecVersion) (c : Component) {struct c} : Component :=
  componentConverter sv (descendComponent (recurseComponent sv) c).

(** ** Services *)

(** /repo/convert.go:579-604 *)
Definition serviceConverter (sv : SpecVersion) (s : Service) : Service :=
  s |> when (sv_lt sv SpecVersion1_3) (set_Service_Properties None)
    |> when (sv_lt sv SpecVersion1_4) (set_Service_ReleaseNotes None)
    |> when (sv_lt sv SpecVersion1_5) (set_Service_TrustZone "")
    |> when (sv_lt sv SpecVersion1_6) (over_Service_Data (convertDataClassifications sv))
    |> when (sv_lt sv SpecVersion1_7) (set_Service_PatentAssertions None)
    |> over_Service_Provider (behind (convertOrganizationalEntity sv))
    |> over_Service_ExternalReferences (convertExternalReferences sv).

(** /repo/convert.go:742-746 *)
Definition descendService (g : Service -> Service) (s : Service) : Service :=
  over_Service_Services (each g) s.

(** /repo/convert.go:735-747 with f = serviceConverter sv; see recurseComponent. *)
Fixpoint recurseService (sv : SpecVersion) (s : Service) {struct s} : Service :=
  serviceConverter sv (descendService (recurseService sv) s).

(** ** Tools *)

(** /repo/convert.go:671-687 *)
Definition convertComponentToTool (c : Component) : Tool :=
  mkTool (match Component_Supplier c with
          | Some s => OrganizationalEntity_Name s
          | None => Component_Author c
          end)
         (Component_Name c) (Component_Version c) (Component_Hashes c) (Component_ExternalReferences c).

(** /repo/convert.go:690-702 *)
Definition convertServiceToTool (s : Service) : Tool :=
  mkTool (match Service_Provider s with
          | Some p => OrganizationalEntity_Name p
          | None => ""
          end)
         (Service_Name s) (Service_Version s) None (Service_ExternalReferences s).

(** /repo/convert.go:657-668 *)
Definition convertTool (sv : SpecVersion) (t : Tool) : Tool :=
  t |> when (sv_lt sv SpecVersion1_4) (set_Tool_ExternalReferences None)
    |> over_Tool_ExternalReferences (convertExternalReferences sv)
    |> over_Tool_Hashes (convertHashes sv).

Definition ptr_elems {A} (p : ptr (slice A)) : list A := match p with Some s => elems s | None => [] end.

(** /repo/convert.go:613-640 *)
Definition flattenTools (t : ToolsChoice) : ToolsChoice :=
  let convertedTools :=
    (map convertComponentToTool (ptr_elems (ToolsChoice_Components t)) ++
     map convertServiceToTool (ptr_elems (ToolsChoice_Services t)))%list in
  let tools :=
    match convertedTools with
    | [] => ToolsChoice_Tools t
    | _ :: _ =>
        match ToolsChoice_Tools t with
        | None => Some (Some convertedTools)
        | Some s => Some (Some (elems s ++ convertedTools)%list)
        end
    end in
  mkToolsChoice tools None None.

(** /repo/convert.go:607-654 *)
Definition convertTools (sv : SpecVersion) (p : ptr ToolsChoice) : ptr ToolsChoice :=
  behind (fun t =>
    t |> when (sv_lt sv SpecVersion1_5) flattenTools
      |> over_ToolsChoice_Services (each (over_Service_Provider (behind (convertOrganizationalEntity sv))))
      |> over_ToolsChoice_Tools (each (convertTool sv))) p.

(** ** Vulnerabilities, compositions, annotations *)

(** /repo/convert.go:550-553 *)
Definition convertRating (sv : SpecVersion) (r : VulnerabilityRating) : VulnerabilityRating :=
  when_c (fun r => negb (supportsScoringMethod sv (VulnerabilityRating_Method r)))
         (set_VulnerabilityRating_Method ScoringMethodOther) r.

(** /repo/convert.go:533-545 *)
Definition convertCredits (sv : SpecVersion) (c : Credits) : Credits :=
  c |> over_Credits_Organizations (each (convertOrganizationalEntity sv))
    |> over_Credits_Individuals (each (convertOrganizationalContact sv)).

(** /repo/convert.go:518-555, the loop body *)
Definition convertVulnerability (sv : SpecVersion) (v : Vulnerability) : Vulnerability :=
  v |> over_Vulnerability_Tools (convertTools sv)
    |> when (sv_lt sv SpecVersion1_5) (fun v =>
         v |> set_Vulnerability_ProofOfConcept None
           |> set_Vulnerability_Rejected ""
           |> set_Vulnerability_Workaround ""
           |> over_Vulnerability_Analysis (behind (fun a => a |> set_VulnerabilityAnalysis_FirstIssued ""
                                     |> set_VulnerabilityAnalysis_LastUpdated "")))
    |> when (sv_lt sv SpecVersion1_6) (over_Vulnerability_Credits (behind (convertCredits sv)))
    |> over_Vulnerability_Ratings (each (convertRating sv)).

(** /repo/convert.go:259-266, the loop body *)
Definition convertComposition (sv : SpecVersion) (c : Composition) : Composition :=
  c |> when (sv_lt sv SpecVersion1_5) (fun c =>
         c |> set_Composition_BOMRef "" |> set_Composition_Vulnerabilities None)
    |> when_c (fun c => negb (supportsCompositionAggregate sv (Composition_Aggregate c))) (set_Composition_Aggregate CompositionAggregateUnknown).

(** /repo/convert.go:566-573, the loop body *)
Definition convertAnnotator (sv : SpecVersion) (a : Annotator) : Annotator :=
  a |> over_Annotator_Organization (behind (convertOrganizationalEntity sv))
    |> over_Annotator_Service (behind (recurseService sv)).

(** /repo/convert.go:559-576 *)
Definition convertAnnotations (sv : SpecVersion) (p : ptr (slice Annotation)) : ptr (slice Annotation) :=
  when (sv_lt sv SpecVersion1_6)
       (each (over_Annotation_Annotator (behind (convertAnnotator sv)))) p.

(** ** The BOM *)

(** /repo/convert.go:73-99 *)
Definition convertMetadata (sv : SpecVersion) (m : Metadata) : Metadata :=
  m |> when (sv_lt sv SpecVersion1_3) (fun m =>
         m |> set_Metadata_Licenses None |> set_Metadata_Properties None)
    |> when (sv_lt sv SpecVersion1_5) (set_Metadata_Lifecycles None)
    |> when (sv_lt sv SpecVersion1_6) (set_Metadata_Manufacturer None)
    |> when (sv_lt sv SpecVersion1_7) (set_Metadata_DistributionConstraints None)
    |> over_Metadata_Component (behind (recurseComponent sv))
    |> over_Metadata_Licenses (convertLicenses sv)
    |> over_Metadata_Tools (convertTools sv)
    |> over_Metadata_Manufacture (behind (convertOrganizationalEntity sv))
    |> over_Metadata_Supplier (behind (convertOrganizationalEntity sv))
    |> over_Metadata_Authors (each (convertOrganizationalContact sv)).

(** /repo/convert.go:35-133 *)
Definition convert (sv : SpecVersion) (b : BOM) : BOM :=
  b |> when (sv_lt sv SpecVersion1_1) (fun b =>
         b |> set_BOM_SerialNumber "" |> set_BOM_ExternalReferences None)
    |> when (sv_lt sv SpecVersion1_2) (fun b =>
         b |> set_BOM_Dependencies None |> set_BOM_Metadata None |> set_BOM_Services None)
    |> when (sv_lt sv SpecVersion1_3) (set_BOM_Compositions None)
    |> when (sv_lt sv SpecVersion1_4) (set_BOM_Vulnerabilities None)
    |> when (sv_lt sv SpecVersion1_5) (fun b =>
         b |> set_BOM_Annotations None |> set_BOM_Formulation None)
    |> when (sv_lt sv SpecVersion1_6) (fun b =>
         b |> set_BOM_Declarations None |> set_BOM_Definitions None)
    |> when (sv_lt sv SpecVersion1_7) (fun b =>
         b |> set_BOM_Citations None
           |> over_BOM_Definitions (behind (set_Definitions_Patents None)))
    |> when (sv_lt sv SpecVersion1_6) (over_BOM_Dependencies (each (set_Dependency_Provides None)))
    |> over_BOM_Metadata (behind (convertMetadata sv))
    |> over_BOM_Components (each (recurseComponent sv))
    |> over_BOM_Services (each (recurseService sv))
    |> over_BOM_Vulnerabilities (each (convertVulnerability sv))
    |> over_BOM_Compositions (each (convertComposition sv))
    |> over_BOM_ExternalReferences (convertExternalReferences sv)
    |> over_BOM_Annotations (convertAnnotations sv)
    |> set_BOM_SpecVersion sv
    |> set_BOM_XMLNS (map_get xmlNamespaces sv)
    |> set_BOM_JSONSchema (map_get jsonSchemas sv).
