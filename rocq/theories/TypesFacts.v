(** GENERATED by tools/gen_types.py: every record is determined by its fields. *)
From Verif Require Import Base Types.

Lemma ext_Property (x y : Property) :
  Property_Name x = Property_Name y ->
  Property_Value x = Property_Value y ->
  x = y.
Proof. destruct x, y; cbn; intros; subst; reflexivity. Qed.
Lemma ext_EnvironmentVariableChoice (x y : EnvironmentVariableChoice) :
  EnvironmentVariableChoice_Property x = EnvironmentVariableChoice_Property y ->
  EnvironmentVariableChoice_Value x = EnvironmentVariableChoice_Value y ->
  x = y.
Proof. destruct x, y; cbn; intros; subst; reflexivity. Qed.
Lemma ext_AttachedText (x y : AttachedText) :
  AttachedText_Content x = AttachedText_Content y ->
  AttachedText_ContentType x = AttachedText_ContentType y ->
  AttachedText_Encoding x = AttachedText_Encoding y ->
  x = y.
Proof. destruct x, y; cbn; intros; subst; reflexivity. Qed.
Lemma ext_PostalAddress (x y : PostalAddress) :
  PostalAddress_BOMRef x = PostalAddress_BOMRef y ->
  PostalAddress_Country x = PostalAddress_Country y ->
  PostalAddress_Region x = PostalAddress_Region y ->
  PostalAddress_Locality x = PostalAddress_Locality y ->
  PostalAddress_PostOfficeBoxNumber x = PostalAddress_PostOfficeBoxNumber y ->
  PostalAddress_PostalCode x = PostalAddress_PostalCode y ->
  PostalAddress_StreetAddress x = PostalAddress_StreetAddress y ->
  x = y.
Proof. destruct x, y; cbn; intros; subst; reflexivity. Qed.
Lemma ext_OrganizationalContact (x y : OrganizationalContact) :
  OrganizationalContact_BOMRef x = OrganizationalContact_BOMRef y ->
  OrganizationalContact_Name x = OrganizationalContact_Name y ->
  OrganizationalContact_Email x = OrganizationalContact_Email y ->
  OrganizationalContact_Phone x = OrganizationalContact_Phone y ->
  x = y.
Proof. destruct x, y; cbn; intros; subst; reflexivity. Qed.
Lemma ext_OrganizationalEntity (x y : OrganizationalEntity) :
  OrganizationalEntity_BOMRef x = OrganizationalEntity_BOMRef y ->
  OrganizationalEntity_Name x = OrganizationalEntity_Name y ->
  OrganizationalEntity_Address x = OrganizationalEntity_Address y ->
  OrganizationalEntity_URL x = OrganizationalEntity_URL y ->
  OrganizationalEntity_Contact x = OrganizationalEntity_Contact y ->
  x = y.
Proof. destruct x, y; cbn; intros; subst; reflexivity. Qed.
Lemma ext_OrganizationalEntityOrContact (x y : OrganizationalEntityOrContact) :
  OrganizationalEntityOrContact_Organization x = OrganizationalEntityOrContact_Organization y ->
  OrganizationalEntityOrContact_Individual x = OrganizationalEntityOrContact_Individual y ->
  x = y.
Proof. destruct x, y; cbn; intros; subst; reflexivity. Qed.
Lemma ext_Licensing (x y : Licensing) :
  Licensing_AltIDs x = Licensing_AltIDs y ->
  Licensing_Licensor x = Licensing_Licensor y ->
  Licensing_Licensee x = Licensing_Licensee y ->
  Licensing_Purchaser x = Licensing_Purchaser y ->
  Licensing_PurchaseOrder x = Licensing_PurchaseOrder y ->
  Licensing_LicenseTypes x = Licensing_LicenseTypes y ->
  Licensing_LastRenewal x = Licensing_LastRenewal y ->
  Licensing_Expiration x = Licensing_Expiration y ->
  x = y.
Proof. destruct x, y; cbn; intros; subst; reflexivity. Qed.
Lemma ext_License (x y : License) :
  License_BOMRef x = License_BOMRef y ->
  License_ID x = License_ID y ->
  License_Name x = License_Name y ->
  License_Acknowledgement x = License_Acknowledgement y ->
  License_Text x = License_Text y ->
  License_URL x = License_URL y ->
  License_Licensing x = License_Licensing y ->
  License_Properties x = License_Properties y ->
  x = y.
Proof. destruct x, y; cbn; intros; subst; reflexivity. Qed.
Lemma ext_LicenseExpressionDetail (x y : LicenseExpressionDetail) :
  LicenseExpressionDetail_LicenseIdentifier x = LicenseExpressionDetail_LicenseIdentifier y ->
  LicenseExpressionDetail_BOMRef x = LicenseExpressionDetail_BOMRef y ->
  LicenseExpressionDetail_Text x = LicenseExpressionDetail_Text y ->
  LicenseExpressionDetail_URL x = LicenseExpressionDetail_URL y ->
  x = y.
Proof. destruct x, y; cbn; intros; subst; reflexivity. Qed.
Lemma ext_LicenseChoice (x y : LicenseChoice) :
  LicenseChoice_License x = LicenseChoice_License y ->
  LicenseChoice_Expression x = LicenseChoice_Expression y ->
  LicenseChoice_ExpressionDetails x = LicenseChoice_ExpressionDetails y ->
  LicenseChoice_Acknowledgement x = LicenseChoice_Acknowledgement y ->
  LicenseChoice_BOMRef x = LicenseChoice_BOMRef y ->
  LicenseChoice_Licensing x = LicenseChoice_Licensing y ->
  LicenseChoice_Properties x = LicenseChoice_Properties y ->
  x = y.
Proof. destruct x, y; cbn; intros; subst; reflexivity. Qed.
Lemma ext_Advisory (x y : Advisory) :
  Advisory_Title x = Advisory_Title y ->
  Advisory_URL x = Advisory_URL y ->
  x = y.
Proof. destruct x, y; cbn; intros; subst; reflexivity. Qed.
Lemma ext_AffectedVersions (x y : AffectedVersions) :
  AffectedVersions_Version x = AffectedVersions_Version y ->
  AffectedVersions_Range x = AffectedVersions_Range y ->
  AffectedVersions_Status x = AffectedVersions_Status y ->
  x = y.
Proof. destruct x, y; cbn; intros; subst; reflexivity. Qed.
Lemma ext_Affects (x y : Affects) :
  Affects_Ref x = Affects_Ref y ->
  Affects_Range x = Affects_Range y ->
  x = y.
Proof. destruct x, y; cbn; intros; subst; reflexivity. Qed.
Lemma ext_Hash (x y : Hash) :
  Hash_Algorithm x = Hash_Algorithm y ->
  Hash_Value x = Hash_Value y ->
  x = y.
Proof. destruct x, y; cbn; intros; subst; reflexivity. Qed.
Lemma ext_SWID (x y : SWID) :
  SWID_Text x = SWID_Text y ->
  SWID_URL x = SWID_URL y ->
  SWID_TagID x = SWID_TagID y ->
  SWID_Name x = SWID_Name y ->
  SWID_Version x = SWID_Version y ->
  SWID_TagVersion x = SWID_TagVersion y ->
  SWID_Patch x = SWID_Patch y ->
  x = y.
Proof. destruct x, y; cbn; intros; subst; reflexivity. Qed.
Lemma ext_IdentifiableAction (x y : IdentifiableAction) :
  IdentifiableAction_Timestamp x = IdentifiableAction_Timestamp y ->
  IdentifiableAction_Name x = IdentifiableAction_Name y ->
  IdentifiableAction_Email x = IdentifiableAction_Email y ->
  x = y.
Proof. destruct x, y; cbn; intros; subst; reflexivity. Qed.
Lemma ext_Commit (x y : Commit) :
  Commit_UID x = Commit_UID y ->
  Commit_URL x = Commit_URL y ->
  Commit_Author x = Commit_Author y ->
  Commit_Committer x = Commit_Committer y ->
  Commit_Message x = Commit_Message y ->
  x = y.
Proof. destruct x, y; cbn; intros; subst; reflexivity. Qed.
Lemma ext_Diff (x y : Diff) :
  Diff_Text x = Diff_Text y ->
  Diff_URL x = Diff_URL y ->
  x = y.
Proof. destruct x, y; cbn; intros; subst; reflexivity. Qed.
Lemma ext_Source (x y : Source) :
  Source_Name x = Source_Name y ->
  Source_URL x = Source_URL y ->
  x = y.
Proof. destruct x, y; cbn; intros; subst; reflexivity. Qed.
Lemma ext_Issue (x y : Issue) :
  Issue_ID x = Issue_ID y ->
  Issue_Name x = Issue_Name y ->
  Issue_Description x = Issue_Description y ->
  Issue_Source x = Issue_Source y ->
  Issue_References x = Issue_References y ->
  Issue_Type x = Issue_Type y ->
  x = y.
Proof. destruct x, y; cbn; intros; subst; reflexivity. Qed.
Lemma ext_Patch (x y : Patch) :
  Patch_Diff x = Patch_Diff y ->
  Patch_Resolves x = Patch_Resolves y ->
  Patch_Type x = Patch_Type y ->
  x = y.
Proof. destruct x, y; cbn; intros; subst; reflexivity. Qed.
Lemma ext_Pedigree {C} (x y : Pedigree_ C) :
  Pedigree_Ancestors x = Pedigree_Ancestors y ->
  Pedigree_Descendants x = Pedigree_Descendants y ->
  Pedigree_Variants x = Pedigree_Variants y ->
  Pedigree_Commits x = Pedigree_Commits y ->
  Pedigree_Patches x = Pedigree_Patches y ->
  Pedigree_Notes x = Pedigree_Notes y ->
  x = y.
Proof. destruct x, y; cbn; intros; subst; reflexivity. Qed.
Lemma ext_ExternalReference (x y : ExternalReference) :
  ExternalReference_URL x = ExternalReference_URL y ->
  ExternalReference_Comment x = ExternalReference_Comment y ->
  ExternalReference_Hashes x = ExternalReference_Hashes y ->
  ExternalReference_Type x = ExternalReference_Type y ->
  ExternalReference_Properties x = ExternalReference_Properties y ->
  x = y.
Proof. destruct x, y; cbn; intros; subst; reflexivity. Qed.
Lemma ext_EvidenceIdentityMethod (x y : EvidenceIdentityMethod) :
  EvidenceIdentityMethod_Technique x = EvidenceIdentityMethod_Technique y ->
  EvidenceIdentityMethod_Confidence x = EvidenceIdentityMethod_Confidence y ->
  EvidenceIdentityMethod_Value x = EvidenceIdentityMethod_Value y ->
  x = y.
Proof. destruct x, y; cbn; intros; subst; reflexivity. Qed.
Lemma ext_EvidenceIdentity (x y : EvidenceIdentity) :
  EvidenceIdentity_Field x = EvidenceIdentity_Field y ->
  EvidenceIdentity_Confidence x = EvidenceIdentity_Confidence y ->
  EvidenceIdentity_ConcludedValue x = EvidenceIdentity_ConcludedValue y ->
  EvidenceIdentity_Methods x = EvidenceIdentity_Methods y ->
  EvidenceIdentity_Tools x = EvidenceIdentity_Tools y ->
  x = y.
Proof. destruct x, y; cbn; intros; subst; reflexivity. Qed.
Lemma ext_EvidenceIdentityChoice (x y : EvidenceIdentityChoice) :
  EvidenceIdentityChoice_Identity x = EvidenceIdentityChoice_Identity y ->
  EvidenceIdentityChoice_Identities x = EvidenceIdentityChoice_Identities y ->
  x = y.
Proof. destruct x, y; cbn; intros; subst; reflexivity. Qed.
Lemma ext_EvidenceOccurrence (x y : EvidenceOccurrence) :
  EvidenceOccurrence_BOMRef x = EvidenceOccurrence_BOMRef y ->
  EvidenceOccurrence_Location x = EvidenceOccurrence_Location y ->
  EvidenceOccurrence_Line x = EvidenceOccurrence_Line y ->
  EvidenceOccurrence_Offset x = EvidenceOccurrence_Offset y ->
  EvidenceOccurrence_Symbol x = EvidenceOccurrence_Symbol y ->
  EvidenceOccurrence_AdditionalContext x = EvidenceOccurrence_AdditionalContext y ->
  x = y.
Proof. destruct x, y; cbn; intros; subst; reflexivity. Qed.
Lemma ext_CallstackFrame (x y : CallstackFrame) :
  CallstackFrame_Package x = CallstackFrame_Package y ->
  CallstackFrame_Module x = CallstackFrame_Module y ->
  CallstackFrame_Function x = CallstackFrame_Function y ->
  CallstackFrame_Parameters x = CallstackFrame_Parameters y ->
  CallstackFrame_Line x = CallstackFrame_Line y ->
  CallstackFrame_Column x = CallstackFrame_Column y ->
  CallstackFrame_FullFilename x = CallstackFrame_FullFilename y ->
  x = y.
Proof. destruct x, y; cbn; intros; subst; reflexivity. Qed.
Lemma ext_Callstack (x y : Callstack) :
  Callstack_Frames x = Callstack_Frames y ->
  x = y.
Proof. destruct x, y; cbn; intros; subst; reflexivity. Qed.
Lemma ext_Copyright (x y : Copyright) :
  Copyright_Text x = Copyright_Text y ->
  x = y.
Proof. destruct x, y; cbn; intros; subst; reflexivity. Qed.
Lemma ext_Evidence (x y : Evidence) :
  Evidence_Identity x = Evidence_Identity y ->
  Evidence_Occurrences x = Evidence_Occurrences y ->
  Evidence_Callstack x = Evidence_Callstack y ->
  Evidence_Licenses x = Evidence_Licenses y ->
  Evidence_Copyright x = Evidence_Copyright y ->
  x = y.
Proof. destruct x, y; cbn; intros; subst; reflexivity. Qed.
Lemma ext_Note (x y : Note) :
  Note_Locale x = Note_Locale y ->
  Note_Text x = Note_Text y ->
  x = y.
Proof. destruct x, y; cbn; intros; subst; reflexivity. Qed.
Lemma ext_ReleaseNotes (x y : ReleaseNotes) :
  ReleaseNotes_Type x = ReleaseNotes_Type y ->
  ReleaseNotes_Title x = ReleaseNotes_Title y ->
  ReleaseNotes_FeaturedImage x = ReleaseNotes_FeaturedImage y ->
  ReleaseNotes_SocialImage x = ReleaseNotes_SocialImage y ->
  ReleaseNotes_Description x = ReleaseNotes_Description y ->
  ReleaseNotes_Timestamp x = ReleaseNotes_Timestamp y ->
  ReleaseNotes_Aliases x = ReleaseNotes_Aliases y ->
  ReleaseNotes_Tags x = ReleaseNotes_Tags y ->
  ReleaseNotes_Resolves x = ReleaseNotes_Resolves y ->
  ReleaseNotes_Notes x = ReleaseNotes_Notes y ->
  ReleaseNotes_Properties x = ReleaseNotes_Properties y ->
  x = y.
Proof. destruct x, y; cbn; intros; subst; reflexivity. Qed.
Lemma ext_MLModelParametersApproach (x y : MLModelParametersApproach) :
  MLModelParametersApproach_Type x = MLModelParametersApproach_Type y ->
  x = y.
Proof. destruct x, y; cbn; intros; subst; reflexivity. Qed.
Lemma ext_ComponentDataContents (x y : ComponentDataContents) :
  ComponentDataContents_Attachment x = ComponentDataContents_Attachment y ->
  ComponentDataContents_URL x = ComponentDataContents_URL y ->
  ComponentDataContents_Properties x = ComponentDataContents_Properties y ->
  x = y.
Proof. destruct x, y; cbn; intros; subst; reflexivity. Qed.
Lemma ext_ComponentDataGraphic (x y : ComponentDataGraphic) :
  ComponentDataGraphic_Name x = ComponentDataGraphic_Name y ->
  ComponentDataGraphic_Image x = ComponentDataGraphic_Image y ->
  x = y.
Proof. destruct x, y; cbn; intros; subst; reflexivity. Qed.
Lemma ext_ComponentDataGraphics (x y : ComponentDataGraphics) :
  ComponentDataGraphics_Description x = ComponentDataGraphics_Description y ->
  ComponentDataGraphics_Collection x = ComponentDataGraphics_Collection y ->
  x = y.
Proof. destruct x, y; cbn; intros; subst; reflexivity. Qed.
Lemma ext_ComponentDataGovernanceResponsibleParty (x y : ComponentDataGovernanceResponsibleParty) :
  ComponentDataGovernanceResponsibleParty_Organization x = ComponentDataGovernanceResponsibleParty_Organization y ->
  ComponentDataGovernanceResponsibleParty_Contact x = ComponentDataGovernanceResponsibleParty_Contact y ->
  x = y.
Proof. destruct x, y; cbn; intros; subst; reflexivity. Qed.
Lemma ext_DataGovernance (x y : DataGovernance) :
  DataGovernance_Custodians x = DataGovernance_Custodians y ->
  DataGovernance_Stewards x = DataGovernance_Stewards y ->
  DataGovernance_Owners x = DataGovernance_Owners y ->
  x = y.
Proof. destruct x, y; cbn; intros; subst; reflexivity. Qed.
Lemma ext_ComponentData (x y : ComponentData) :
  ComponentData_BOMRef x = ComponentData_BOMRef y ->
  ComponentData_Type x = ComponentData_Type y ->
  ComponentData_Name x = ComponentData_Name y ->
  ComponentData_Contents x = ComponentData_Contents y ->
  ComponentData_Classification x = ComponentData_Classification y ->
  ComponentData_SensitiveData x = ComponentData_SensitiveData y ->
  ComponentData_Graphics x = ComponentData_Graphics y ->
  ComponentData_Description x = ComponentData_Description y ->
  ComponentData_Governance x = ComponentData_Governance y ->
  x = y.
Proof. destruct x, y; cbn; intros; subst; reflexivity. Qed.
Lemma ext_MLDatasetChoice (x y : MLDatasetChoice) :
  MLDatasetChoice_Ref x = MLDatasetChoice_Ref y ->
  MLDatasetChoice_ComponentData x = MLDatasetChoice_ComponentData y ->
  x = y.
Proof. destruct x, y; cbn; intros; subst; reflexivity. Qed.
Lemma ext_MLInputOutputParameters (x y : MLInputOutputParameters) :
  MLInputOutputParameters_Format x = MLInputOutputParameters_Format y ->
  x = y.
Proof. destruct x, y; cbn; intros; subst; reflexivity. Qed.
Lemma ext_MLModelParameters (x y : MLModelParameters) :
  MLModelParameters_Approach x = MLModelParameters_Approach y ->
  MLModelParameters_Task x = MLModelParameters_Task y ->
  MLModelParameters_ArchitectureFamily x = MLModelParameters_ArchitectureFamily y ->
  MLModelParameters_ModelArchitecture x = MLModelParameters_ModelArchitecture y ->
  MLModelParameters_Datasets x = MLModelParameters_Datasets y ->
  MLModelParameters_Inputs x = MLModelParameters_Inputs y ->
  MLModelParameters_Outputs x = MLModelParameters_Outputs y ->
  x = y.
Proof. destruct x, y; cbn; intros; subst; reflexivity. Qed.
Lemma ext_MLPerformanceMetricConfidenceInterval (x y : MLPerformanceMetricConfidenceInterval) :
  MLPerformanceMetricConfidenceInterval_LowerBound x = MLPerformanceMetricConfidenceInterval_LowerBound y ->
  MLPerformanceMetricConfidenceInterval_UpperBound x = MLPerformanceMetricConfidenceInterval_UpperBound y ->
  x = y.
Proof. destruct x, y; cbn; intros; subst; reflexivity. Qed.
Lemma ext_MLPerformanceMetric (x y : MLPerformanceMetric) :
  MLPerformanceMetric_Type x = MLPerformanceMetric_Type y ->
  MLPerformanceMetric_Value x = MLPerformanceMetric_Value y ->
  MLPerformanceMetric_Slice x = MLPerformanceMetric_Slice y ->
  MLPerformanceMetric_ConfidenceInterval x = MLPerformanceMetric_ConfidenceInterval y ->
  x = y.
Proof. destruct x, y; cbn; intros; subst; reflexivity. Qed.
Lemma ext_MLQuantitativeAnalysis (x y : MLQuantitativeAnalysis) :
  MLQuantitativeAnalysis_PerformanceMetrics x = MLQuantitativeAnalysis_PerformanceMetrics y ->
  MLQuantitativeAnalysis_Graphics x = MLQuantitativeAnalysis_Graphics y ->
  x = y.
Proof. destruct x, y; cbn; intros; subst; reflexivity. Qed.
Lemma ext_MLModelCardEthicalConsideration (x y : MLModelCardEthicalConsideration) :
  MLModelCardEthicalConsideration_Name x = MLModelCardEthicalConsideration_Name y ->
  MLModelCardEthicalConsideration_MitigationStrategy x = MLModelCardEthicalConsideration_MitigationStrategy y ->
  x = y.
Proof. destruct x, y; cbn; intros; subst; reflexivity. Qed.
Lemma ext_MLModelEnergyMeasure (x y : MLModelEnergyMeasure) :
  MLModelEnergyMeasure_Value x = MLModelEnergyMeasure_Value y ->
  MLModelEnergyMeasure_Unit x = MLModelEnergyMeasure_Unit y ->
  x = y.
Proof. destruct x, y; cbn; intros; subst; reflexivity. Qed.
Lemma ext_MLModelEnergyProvider (x y : MLModelEnergyProvider) :
  MLModelEnergyProvider_BOMRef x = MLModelEnergyProvider_BOMRef y ->
  MLModelEnergyProvider_Description x = MLModelEnergyProvider_Description y ->
  MLModelEnergyProvider_Organization x = MLModelEnergyProvider_Organization y ->
  MLModelEnergyProvider_EnergySource x = MLModelEnergyProvider_EnergySource y ->
  MLModelEnergyProvider_EnergyProvided x = MLModelEnergyProvider_EnergyProvided y ->
  MLModelEnergyProvider_ExternalReferences x = MLModelEnergyProvider_ExternalReferences y ->
  x = y.
Proof. destruct x, y; cbn; intros; subst; reflexivity. Qed.
Lemma ext_MLModelCO2Measure (x y : MLModelCO2Measure) :
  MLModelCO2Measure_Value x = MLModelCO2Measure_Value y ->
  MLModelCO2Measure_Unit x = MLModelCO2Measure_Unit y ->
  x = y.
Proof. destruct x, y; cbn; intros; subst; reflexivity. Qed.
Lemma ext_MLModelEnergyConsumption (x y : MLModelEnergyConsumption) :
  MLModelEnergyConsumption_Activity x = MLModelEnergyConsumption_Activity y ->
  MLModelEnergyConsumption_EnergyProviders x = MLModelEnergyConsumption_EnergyProviders y ->
  MLModelEnergyConsumption_ActivityEnergyCost x = MLModelEnergyConsumption_ActivityEnergyCost y ->
  MLModelEnergyConsumption_CO2CostEquivalent x = MLModelEnergyConsumption_CO2CostEquivalent y ->
  MLModelEnergyConsumption_CO2CostOffset x = MLModelEnergyConsumption_CO2CostOffset y ->
  MLModelEnergyConsumption_Properties x = MLModelEnergyConsumption_Properties y ->
  x = y.
Proof. destruct x, y; cbn; intros; subst; reflexivity. Qed.
Lemma ext_MLModelCardEnvironmentalConsiderations (x y : MLModelCardEnvironmentalConsiderations) :
  MLModelCardEnvironmentalConsiderations_EnergyConsumptions x = MLModelCardEnvironmentalConsiderations_EnergyConsumptions y ->
  MLModelCardEnvironmentalConsiderations_Properties x = MLModelCardEnvironmentalConsiderations_Properties y ->
  x = y.
Proof. destruct x, y; cbn; intros; subst; reflexivity. Qed.
Lemma ext_MLModelCardFairnessAssessment (x y : MLModelCardFairnessAssessment) :
  MLModelCardFairnessAssessment_GroupAtRisk x = MLModelCardFairnessAssessment_GroupAtRisk y ->
  MLModelCardFairnessAssessment_Benefits x = MLModelCardFairnessAssessment_Benefits y ->
  MLModelCardFairnessAssessment_Harms x = MLModelCardFairnessAssessment_Harms y ->
  MLModelCardFairnessAssessment_MitigationStrategy x = MLModelCardFairnessAssessment_MitigationStrategy y ->
  x = y.
Proof. destruct x, y; cbn; intros; subst; reflexivity. Qed.
Lemma ext_MLModelCardConsiderations (x y : MLModelCardConsiderations) :
  MLModelCardConsiderations_Users x = MLModelCardConsiderations_Users y ->
  MLModelCardConsiderations_UseCases x = MLModelCardConsiderations_UseCases y ->
  MLModelCardConsiderations_TechnicalLimitations x = MLModelCardConsiderations_TechnicalLimitations y ->
  MLModelCardConsiderations_PerformanceTradeoffs x = MLModelCardConsiderations_PerformanceTradeoffs y ->
  MLModelCardConsiderations_EthicalConsiderations x = MLModelCardConsiderations_EthicalConsiderations y ->
  MLModelCardConsiderations_EnvironmentalConsiderations x = MLModelCardConsiderations_EnvironmentalConsiderations y ->
  MLModelCardConsiderations_FairnessAssessments x = MLModelCardConsiderations_FairnessAssessments y ->
  x = y.
Proof. destruct x, y; cbn; intros; subst; reflexivity. Qed.
Lemma ext_MLModelCard (x y : MLModelCard) :
  MLModelCard_BOMRef x = MLModelCard_BOMRef y ->
  MLModelCard_ModelParameters x = MLModelCard_ModelParameters y ->
  MLModelCard_QuantitativeAnalysis x = MLModelCard_QuantitativeAnalysis y ->
  MLModelCard_Considerations x = MLModelCard_Considerations y ->
  x = y.
Proof. destruct x, y; cbn; intros; subst; reflexivity. Qed.
Lemma ext_CryptoAlgorithmProperties (x y : CryptoAlgorithmProperties) :
  CryptoAlgorithmProperties_Primitive x = CryptoAlgorithmProperties_Primitive y ->
  CryptoAlgorithmProperties_ParameterSetIdentifier x = CryptoAlgorithmProperties_ParameterSetIdentifier y ->
  CryptoAlgorithmProperties_AlgorithmFamily x = CryptoAlgorithmProperties_AlgorithmFamily y ->
  CryptoAlgorithmProperties_Curve x = CryptoAlgorithmProperties_Curve y ->
  CryptoAlgorithmProperties_EllipticCurve x = CryptoAlgorithmProperties_EllipticCurve y ->
  CryptoAlgorithmProperties_ExecutionEnvironment x = CryptoAlgorithmProperties_ExecutionEnvironment y ->
  CryptoAlgorithmProperties_ImplementationPlatform x = CryptoAlgorithmProperties_ImplementationPlatform y ->
  CryptoAlgorithmProperties_CertificationLevel x = CryptoAlgorithmProperties_CertificationLevel y ->
  CryptoAlgorithmProperties_Mode x = CryptoAlgorithmProperties_Mode y ->
  CryptoAlgorithmProperties_Padding x = CryptoAlgorithmProperties_Padding y ->
  CryptoAlgorithmProperties_CryptoFunctions x = CryptoAlgorithmProperties_CryptoFunctions y ->
  CryptoAlgorithmProperties_ClassicalSecurityLevel x = CryptoAlgorithmProperties_ClassicalSecurityLevel y ->
  CryptoAlgorithmProperties_NistQuantumSecurityLevel x = CryptoAlgorithmProperties_NistQuantumSecurityLevel y ->
  x = y.
Proof. destruct x, y; cbn; intros; subst; reflexivity. Qed.
Lemma ext_PredefinedCertificateState (x y : PredefinedCertificateState) :
  PredefinedCertificateState_State x = PredefinedCertificateState_State y ->
  PredefinedCertificateState_Reason x = PredefinedCertificateState_Reason y ->
  x = y.
Proof. destruct x, y; cbn; intros; subst; reflexivity. Qed.
Lemma ext_CustomCertificateState (x y : CustomCertificateState) :
  CustomCertificateState_Name x = CustomCertificateState_Name y ->
  CustomCertificateState_Description x = CustomCertificateState_Description y ->
  CustomCertificateState_Reason x = CustomCertificateState_Reason y ->
  x = y.
Proof. destruct x, y; cbn; intros; subst; reflexivity. Qed.
Lemma ext_CertificateState (x y : CertificateState) :
  CertificateState_Predefined x = CertificateState_Predefined y ->
  CertificateState_Custom x = CertificateState_Custom y ->
  x = y.
Proof. destruct x, y; cbn; intros; subst; reflexivity. Qed.
Lemma ext_CommonCertificateExtension (x y : CommonCertificateExtension) :
  CommonCertificateExtension_Name x = CommonCertificateExtension_Name y ->
  CommonCertificateExtension_Value x = CommonCertificateExtension_Value y ->
  x = y.
Proof. destruct x, y; cbn; intros; subst; reflexivity. Qed.
Lemma ext_CustomCertificateExtension (x y : CustomCertificateExtension) :
  CustomCertificateExtension_Name x = CustomCertificateExtension_Name y ->
  CustomCertificateExtension_Value x = CustomCertificateExtension_Value y ->
  x = y.
Proof. destruct x, y; cbn; intros; subst; reflexivity. Qed.
Lemma ext_CertificateExtension (x y : CertificateExtension) :
  CertificateExtension_Common x = CertificateExtension_Common y ->
  CertificateExtension_Custom x = CertificateExtension_Custom y ->
  x = y.
Proof. destruct x, y; cbn; intros; subst; reflexivity. Qed.
Lemma ext_RelatedCryptographicAsset (x y : RelatedCryptographicAsset) :
  RelatedCryptographicAsset_Type x = RelatedCryptographicAsset_Type y ->
  RelatedCryptographicAsset_Ref x = RelatedCryptographicAsset_Ref y ->
  x = y.
Proof. destruct x, y; cbn; intros; subst; reflexivity. Qed.
Lemma ext_CertificateProperties (x y : CertificateProperties) :
  CertificateProperties_SerialNumber x = CertificateProperties_SerialNumber y ->
  CertificateProperties_SubjectName x = CertificateProperties_SubjectName y ->
  CertificateProperties_IssuerName x = CertificateProperties_IssuerName y ->
  CertificateProperties_NotValidBefore x = CertificateProperties_NotValidBefore y ->
  CertificateProperties_NotValidAfter x = CertificateProperties_NotValidAfter y ->
  CertificateProperties_SignatureAlgorithmRef x = CertificateProperties_SignatureAlgorithmRef y ->
  CertificateProperties_SubjectPublicKeyRef x = CertificateProperties_SubjectPublicKeyRef y ->
  CertificateProperties_CertificateFormat x = CertificateProperties_CertificateFormat y ->
  CertificateProperties_CertificateExtension x = CertificateProperties_CertificateExtension y ->
  CertificateProperties_CertificateFileExtension x = CertificateProperties_CertificateFileExtension y ->
  CertificateProperties_Fingerprint x = CertificateProperties_Fingerprint y ->
  CertificateProperties_CertificateState x = CertificateProperties_CertificateState y ->
  CertificateProperties_CertificateExtensions x = CertificateProperties_CertificateExtensions y ->
  CertificateProperties_RelatedCryptographicAssets x = CertificateProperties_RelatedCryptographicAssets y ->
  CertificateProperties_CreationDate x = CertificateProperties_CreationDate y ->
  CertificateProperties_ActivationDate x = CertificateProperties_ActivationDate y ->
  CertificateProperties_DeactivationDate x = CertificateProperties_DeactivationDate y ->
  CertificateProperties_RevocationDate x = CertificateProperties_RevocationDate y ->
  CertificateProperties_DestructionDate x = CertificateProperties_DestructionDate y ->
  x = y.
Proof. destruct x, y; cbn; intros; subst; reflexivity. Qed.
Lemma ext_SecuredBy (x y : SecuredBy) :
  SecuredBy_Mechanism x = SecuredBy_Mechanism y ->
  SecuredBy_AlgorithmRef x = SecuredBy_AlgorithmRef y ->
  x = y.
Proof. destruct x, y; cbn; intros; subst; reflexivity. Qed.
Lemma ext_RelatedCryptoMaterialProperties (x y : RelatedCryptoMaterialProperties) :
  RelatedCryptoMaterialProperties_Type x = RelatedCryptoMaterialProperties_Type y ->
  RelatedCryptoMaterialProperties_ID x = RelatedCryptoMaterialProperties_ID y ->
  RelatedCryptoMaterialProperties_State x = RelatedCryptoMaterialProperties_State y ->
  RelatedCryptoMaterialProperties_AlgorithmRef x = RelatedCryptoMaterialProperties_AlgorithmRef y ->
  RelatedCryptoMaterialProperties_CreationDate x = RelatedCryptoMaterialProperties_CreationDate y ->
  RelatedCryptoMaterialProperties_ActivationDate x = RelatedCryptoMaterialProperties_ActivationDate y ->
  RelatedCryptoMaterialProperties_UpdateDate x = RelatedCryptoMaterialProperties_UpdateDate y ->
  RelatedCryptoMaterialProperties_ExpirationDate x = RelatedCryptoMaterialProperties_ExpirationDate y ->
  RelatedCryptoMaterialProperties_Value x = RelatedCryptoMaterialProperties_Value y ->
  RelatedCryptoMaterialProperties_Size x = RelatedCryptoMaterialProperties_Size y ->
  RelatedCryptoMaterialProperties_Format x = RelatedCryptoMaterialProperties_Format y ->
  RelatedCryptoMaterialProperties_SecuredBy x = RelatedCryptoMaterialProperties_SecuredBy y ->
  RelatedCryptoMaterialProperties_Fingerprint x = RelatedCryptoMaterialProperties_Fingerprint y ->
  RelatedCryptoMaterialProperties_RelatedCryptographicAssets x = RelatedCryptoMaterialProperties_RelatedCryptographicAssets y ->
  x = y.
Proof. destruct x, y; cbn; intros; subst; reflexivity. Qed.
Lemma ext_CipherSuite (x y : CipherSuite) :
  CipherSuite_Name x = CipherSuite_Name y ->
  CipherSuite_Algorithms x = CipherSuite_Algorithms y ->
  CipherSuite_Identifiers x = CipherSuite_Identifiers y ->
  CipherSuite_TLSGroups x = CipherSuite_TLSGroups y ->
  CipherSuite_TLSSignatureSchemes x = CipherSuite_TLSSignatureSchemes y ->
  x = y.
Proof. destruct x, y; cbn; intros; subst; reflexivity. Qed.
Lemma ext_IKEv2Enc (x y : IKEv2Enc) :
  IKEv2Enc_BOMRef x = IKEv2Enc_BOMRef y ->
  IKEv2Enc_Name x = IKEv2Enc_Name y ->
  IKEv2Enc_KeyLength x = IKEv2Enc_KeyLength y ->
  IKEv2Enc_Algorithm x = IKEv2Enc_Algorithm y ->
  x = y.
Proof. destruct x, y; cbn; intros; subst; reflexivity. Qed.
Lemma ext_IKEv2Prf (x y : IKEv2Prf) :
  IKEv2Prf_BOMRef x = IKEv2Prf_BOMRef y ->
  IKEv2Prf_Name x = IKEv2Prf_Name y ->
  IKEv2Prf_Algorithm x = IKEv2Prf_Algorithm y ->
  x = y.
Proof. destruct x, y; cbn; intros; subst; reflexivity. Qed.
Lemma ext_IKEv2Integ (x y : IKEv2Integ) :
  IKEv2Integ_BOMRef x = IKEv2Integ_BOMRef y ->
  IKEv2Integ_Name x = IKEv2Integ_Name y ->
  IKEv2Integ_Algorithm x = IKEv2Integ_Algorithm y ->
  x = y.
Proof. destruct x, y; cbn; intros; subst; reflexivity. Qed.
Lemma ext_IKEv2Ke (x y : IKEv2Ke) :
  IKEv2Ke_BOMRef x = IKEv2Ke_BOMRef y ->
  IKEv2Ke_Group x = IKEv2Ke_Group y ->
  IKEv2Ke_Algorithm x = IKEv2Ke_Algorithm y ->
  x = y.
Proof. destruct x, y; cbn; intros; subst; reflexivity. Qed.
Lemma ext_IKEv2Auth (x y : IKEv2Auth) :
  IKEv2Auth_BOMRef x = IKEv2Auth_BOMRef y ->
  IKEv2Auth_Name x = IKEv2Auth_Name y ->
  IKEv2Auth_Algorithm x = IKEv2Auth_Algorithm y ->
  x = y.
Proof. destruct x, y; cbn; intros; subst; reflexivity. Qed.
Lemma ext_IKEv2TransformTypes (x y : IKEv2TransformTypes) :
  IKEv2TransformTypes_Encr x = IKEv2TransformTypes_Encr y ->
  IKEv2TransformTypes_PRF x = IKEv2TransformTypes_PRF y ->
  IKEv2TransformTypes_Integ x = IKEv2TransformTypes_Integ y ->
  IKEv2TransformTypes_KE x = IKEv2TransformTypes_KE y ->
  IKEv2TransformTypes_ESN x = IKEv2TransformTypes_ESN y ->
  IKEv2TransformTypes_Auth x = IKEv2TransformTypes_Auth y ->
  x = y.
Proof. destruct x, y; cbn; intros; subst; reflexivity. Qed.
Lemma ext_CryptoProtocolProperties (x y : CryptoProtocolProperties) :
  CryptoProtocolProperties_Type x = CryptoProtocolProperties_Type y ->
  CryptoProtocolProperties_Version x = CryptoProtocolProperties_Version y ->
  CryptoProtocolProperties_CipherSuites x = CryptoProtocolProperties_CipherSuites y ->
  CryptoProtocolProperties_IKEv2TransformTypes x = CryptoProtocolProperties_IKEv2TransformTypes y ->
  CryptoProtocolProperties_CryptoRefArray x = CryptoProtocolProperties_CryptoRefArray y ->
  CryptoProtocolProperties_RelatedCryptographicAssets x = CryptoProtocolProperties_RelatedCryptographicAssets y ->
  x = y.
Proof. destruct x, y; cbn; intros; subst; reflexivity. Qed.
Lemma ext_CryptoProperties (x y : CryptoProperties) :
  CryptoProperties_AssetType x = CryptoProperties_AssetType y ->
  CryptoProperties_AlgorithmProperties x = CryptoProperties_AlgorithmProperties y ->
  CryptoProperties_CertificateProperties x = CryptoProperties_CertificateProperties y ->
  CryptoProperties_RelatedCryptoMaterialProperties x = CryptoProperties_RelatedCryptoMaterialProperties y ->
  CryptoProperties_ProtocolProperties x = CryptoProperties_ProtocolProperties y ->
  CryptoProperties_OID x = CryptoProperties_OID y ->
  x = y.
Proof. destruct x, y; cbn; intros; subst; reflexivity. Qed.
Lemma ext_AsserterChoice (x y : AsserterChoice) :
  AsserterChoice_Organization x = AsserterChoice_Organization y ->
  AsserterChoice_Individual x = AsserterChoice_Individual y ->
  AsserterChoice_BOMRef x = AsserterChoice_BOMRef y ->
  x = y.
Proof. destruct x, y; cbn; intros; subst; reflexivity. Qed.
Lemma ext_PatentAssertion (x y : PatentAssertion) :
  PatentAssertion_BOMRef x = PatentAssertion_BOMRef y ->
  PatentAssertion_PatentRefs x = PatentAssertion_PatentRefs y ->
  PatentAssertion_AssertionType x = PatentAssertion_AssertionType y ->
  PatentAssertion_Asserter x = PatentAssertion_Asserter y ->
  PatentAssertion_Notes x = PatentAssertion_Notes y ->
  x = y.
Proof. destruct x, y; cbn; intros; subst; reflexivity. Qed.
Lemma ext_JSFPublicKey (x y : JSFPublicKey) :
  JSFPublicKey_KTY x = JSFPublicKey_KTY y ->
  JSFPublicKey_CRV x = JSFPublicKey_CRV y ->
  JSFPublicKey_X x = JSFPublicKey_X y ->
  JSFPublicKey_Y x = JSFPublicKey_Y y ->
  JSFPublicKey_N x = JSFPublicKey_N y ->
  JSFPublicKey_E x = JSFPublicKey_E y ->
  x = y.
Proof. destruct x, y; cbn; intros; subst; reflexivity. Qed.
Lemma ext_JSFSigner (x y : JSFSigner) :
  JSFSigner_Algorithm x = JSFSigner_Algorithm y ->
  JSFSigner_KeyID x = JSFSigner_KeyID y ->
  JSFSigner_PublicKey x = JSFSigner_PublicKey y ->
  JSFSigner_CertificatePath x = JSFSigner_CertificatePath y ->
  JSFSigner_Excludes x = JSFSigner_Excludes y ->
  JSFSigner_Value x = JSFSigner_Value y ->
  x = y.
Proof. destruct x, y; cbn; intros; subst; reflexivity. Qed.
Lemma ext_JSFSignature (x y : JSFSignature) :
  JSFSignature_JSFSigner x = JSFSignature_JSFSigner y ->
  JSFSignature_Signers x = JSFSignature_Signers y ->
  JSFSignature_Chain x = JSFSignature_Chain y ->
  x = y.
Proof. destruct x, y; cbn; intros; subst; reflexivity. Qed.
Lemma ext_Component (x y : Component) :
  Component_BOMRef x = Component_BOMRef y ->
  Component_MIMEType x = Component_MIMEType y ->
  Component_Type x = Component_Type y ->
  Component_Supplier x = Component_Supplier y ->
  Component_Manufacturer x = Component_Manufacturer y ->
  Component_Author x = Component_Author y ->
  Component_Authors x = Component_Authors y ->
  Component_Publisher x = Component_Publisher y ->
  Component_Group x = Component_Group y ->
  Component_Name x = Component_Name y ->
  Component_Version x = Component_Version y ->
  Component_Description x = Component_Description y ->
  Component_Scope x = Component_Scope y ->
  Component_Hashes x = Component_Hashes y ->
  Component_Licenses x = Component_Licenses y ->
  Component_Copyright x = Component_Copyright y ->
  Component_CPE x = Component_CPE y ->
  Component_PackageURL x = Component_PackageURL y ->
  Component_OmniborID x = Component_OmniborID y ->
  Component_SWHID x = Component_SWHID y ->
  Component_SWID x = Component_SWID y ->
  Component_Modified x = Component_Modified y ->
  Component_Pedigree x = Component_Pedigree y ->
  Component_ExternalReferences x = Component_ExternalReferences y ->
  Component_Properties x = Component_Properties y ->
  Component_Components x = Component_Components y ->
  Component_Evidence x = Component_Evidence y ->
  Component_ReleaseNotes x = Component_ReleaseNotes y ->
  Component_ModelCard x = Component_ModelCard y ->
  Component_Data x = Component_Data y ->
  Component_CryptoProperties x = Component_CryptoProperties y ->
  Component_Tags x = Component_Tags y ->
  Component_IsExternal x = Component_IsExternal y ->
  Component_PatentAssertions x = Component_PatentAssertions y ->
  Component_VersionRange x = Component_VersionRange y ->
  Component_Signature x = Component_Signature y ->
  x = y.
Proof. destruct x, y; cbn; intros; subst; reflexivity. Qed.
Lemma ext_DataClassification (x y : DataClassification) :
  DataClassification_Flow x = DataClassification_Flow y ->
  DataClassification_Classification x = DataClassification_Classification y ->
  DataClassification_Name x = DataClassification_Name y ->
  DataClassification_Description x = DataClassification_Description y ->
  DataClassification_Governance x = DataClassification_Governance y ->
  DataClassification_Source x = DataClassification_Source y ->
  DataClassification_Destination x = DataClassification_Destination y ->
  x = y.
Proof. destruct x, y; cbn; intros; subst; reflexivity. Qed.
Lemma ext_Service (x y : Service) :
  Service_BOMRef x = Service_BOMRef y ->
  Service_Provider x = Service_Provider y ->
  Service_Group x = Service_Group y ->
  Service_Name x = Service_Name y ->
  Service_Version x = Service_Version y ->
  Service_Description x = Service_Description y ->
  Service_Endpoints x = Service_Endpoints y ->
  Service_Authenticated x = Service_Authenticated y ->
  Service_CrossesTrustBoundary x = Service_CrossesTrustBoundary y ->
  Service_Data x = Service_Data y ->
  Service_Licenses x = Service_Licenses y ->
  Service_ExternalReferences x = Service_ExternalReferences y ->
  Service_Properties x = Service_Properties y ->
  Service_Services x = Service_Services y ->
  Service_ReleaseNotes x = Service_ReleaseNotes y ->
  Service_Tags x = Service_Tags y ->
  Service_TrustZone x = Service_TrustZone y ->
  Service_PatentAssertions x = Service_PatentAssertions y ->
  Service_Signature x = Service_Signature y ->
  x = y.
Proof. destruct x, y; cbn; intros; subst; reflexivity. Qed.
Lemma ext_Annotator (x y : Annotator) :
  Annotator_Organization x = Annotator_Organization y ->
  Annotator_Individual x = Annotator_Individual y ->
  Annotator_Component x = Annotator_Component y ->
  Annotator_Service x = Annotator_Service y ->
  x = y.
Proof. destruct x, y; cbn; intros; subst; reflexivity. Qed.
Lemma ext_Annotation (x y : Annotation) :
  Annotation_BOMRef x = Annotation_BOMRef y ->
  Annotation_Subjects x = Annotation_Subjects y ->
  Annotation_Annotator x = Annotation_Annotator y ->
  Annotation_Timestamp x = Annotation_Timestamp y ->
  Annotation_Text x = Annotation_Text y ->
  Annotation_Signature x = Annotation_Signature y ->
  x = y.
Proof. destruct x, y; cbn; intros; subst; reflexivity. Qed.
Lemma ext_Assessor (x y : Assessor) :
  Assessor_BOMRef x = Assessor_BOMRef y ->
  Assessor_ThirdParty x = Assessor_ThirdParty y ->
  Assessor_Organization x = Assessor_Organization y ->
  x = y.
Proof. destruct x, y; cbn; intros; subst; reflexivity. Qed.
Lemma ext_AttestationConformance (x y : AttestationConformance) :
  AttestationConformance_Score x = AttestationConformance_Score y ->
  AttestationConformance_Rationale x = AttestationConformance_Rationale y ->
  AttestationConformance_MitigationStrategies x = AttestationConformance_MitigationStrategies y ->
  x = y.
Proof. destruct x, y; cbn; intros; subst; reflexivity. Qed.
Lemma ext_AttestationConfidence (x y : AttestationConfidence) :
  AttestationConfidence_Score x = AttestationConfidence_Score y ->
  AttestationConfidence_Rationale x = AttestationConfidence_Rationale y ->
  x = y.
Proof. destruct x, y; cbn; intros; subst; reflexivity. Qed.
Lemma ext_AttestationMap (x y : AttestationMap) :
  AttestationMap_Requirement x = AttestationMap_Requirement y ->
  AttestationMap_Claims x = AttestationMap_Claims y ->
  AttestationMap_CounterClaims x = AttestationMap_CounterClaims y ->
  AttestationMap_Conformance x = AttestationMap_Conformance y ->
  AttestationMap_Confidence x = AttestationMap_Confidence y ->
  x = y.
Proof. destruct x, y; cbn; intros; subst; reflexivity. Qed.
Lemma ext_Attestation (x y : Attestation) :
  Attestation_Summary x = Attestation_Summary y ->
  Attestation_Assessor x = Attestation_Assessor y ->
  Attestation_Map x = Attestation_Map y ->
  Attestation_Signature x = Attestation_Signature y ->
  x = y.
Proof. destruct x, y; cbn; intros; subst; reflexivity. Qed.
Lemma ext_Lifecycle (x y : Lifecycle) :
  Lifecycle_Name x = Lifecycle_Name y ->
  Lifecycle_Phase x = Lifecycle_Phase y ->
  Lifecycle_Description x = Lifecycle_Description y ->
  x = y.
Proof. destruct x, y; cbn; intros; subst; reflexivity. Qed.
Lemma ext_Tool (x y : Tool) :
  Tool_Vendor x = Tool_Vendor y ->
  Tool_Name x = Tool_Name y ->
  Tool_Version x = Tool_Version y ->
  Tool_Hashes x = Tool_Hashes y ->
  Tool_ExternalReferences x = Tool_ExternalReferences y ->
  x = y.
Proof. destruct x, y; cbn; intros; subst; reflexivity. Qed.
Lemma ext_ToolsChoice (x y : ToolsChoice) :
  ToolsChoice_Tools x = ToolsChoice_Tools y ->
  ToolsChoice_Components x = ToolsChoice_Components y ->
  ToolsChoice_Services x = ToolsChoice_Services y ->
  x = y.
Proof. destruct x, y; cbn; intros; subst; reflexivity. Qed.
Lemma ext_DistributionConstraints (x y : DistributionConstraints) :
  DistributionConstraints_TLP x = DistributionConstraints_TLP y ->
  x = y.
Proof. destruct x, y; cbn; intros; subst; reflexivity. Qed.
Lemma ext_Metadata (x y : Metadata) :
  Metadata_Timestamp x = Metadata_Timestamp y ->
  Metadata_Lifecycles x = Metadata_Lifecycles y ->
  Metadata_Tools x = Metadata_Tools y ->
  Metadata_Authors x = Metadata_Authors y ->
  Metadata_Component x = Metadata_Component y ->
  Metadata_Manufacture x = Metadata_Manufacture y ->
  Metadata_Manufacturer x = Metadata_Manufacturer y ->
  Metadata_Supplier x = Metadata_Supplier y ->
  Metadata_Licenses x = Metadata_Licenses y ->
  Metadata_Properties x = Metadata_Properties y ->
  Metadata_DistributionConstraints x = Metadata_DistributionConstraints y ->
  x = y.
Proof. destruct x, y; cbn; intros; subst; reflexivity. Qed.
Lemma ext_Dependency (x y : Dependency) :
  Dependency_Ref x = Dependency_Ref y ->
  Dependency_Dependencies x = Dependency_Dependencies y ->
  Dependency_Provides x = Dependency_Provides y ->
  x = y.
Proof. destruct x, y; cbn; intros; subst; reflexivity. Qed.
Lemma ext_Composition (x y : Composition) :
  Composition_BOMRef x = Composition_BOMRef y ->
  Composition_Aggregate x = Composition_Aggregate y ->
  Composition_Assemblies x = Composition_Assemblies y ->
  Composition_Dependencies x = Composition_Dependencies y ->
  Composition_Vulnerabilities x = Composition_Vulnerabilities y ->
  Composition_Signature x = Composition_Signature y ->
  x = y.
Proof. destruct x, y; cbn; intros; subst; reflexivity. Qed.
Lemma ext_VulnerabilityReference (x y : VulnerabilityReference) :
  VulnerabilityReference_ID x = VulnerabilityReference_ID y ->
  VulnerabilityReference_Source x = VulnerabilityReference_Source y ->
  x = y.
Proof. destruct x, y; cbn; intros; subst; reflexivity. Qed.
Lemma ext_VulnerabilityRating (x y : VulnerabilityRating) :
  VulnerabilityRating_Source x = VulnerabilityRating_Source y ->
  VulnerabilityRating_Score x = VulnerabilityRating_Score y ->
  VulnerabilityRating_Severity x = VulnerabilityRating_Severity y ->
  VulnerabilityRating_Method x = VulnerabilityRating_Method y ->
  VulnerabilityRating_Vector x = VulnerabilityRating_Vector y ->
  VulnerabilityRating_Justification x = VulnerabilityRating_Justification y ->
  x = y.
Proof. destruct x, y; cbn; intros; subst; reflexivity. Qed.
Lemma ext_ProofOfConcept (x y : ProofOfConcept) :
  ProofOfConcept_ReproductionSteps x = ProofOfConcept_ReproductionSteps y ->
  ProofOfConcept_Environment x = ProofOfConcept_Environment y ->
  ProofOfConcept_SupportingMaterial x = ProofOfConcept_SupportingMaterial y ->
  x = y.
Proof. destruct x, y; cbn; intros; subst; reflexivity. Qed.
Lemma ext_Credits (x y : Credits) :
  Credits_Organizations x = Credits_Organizations y ->
  Credits_Individuals x = Credits_Individuals y ->
  x = y.
Proof. destruct x, y; cbn; intros; subst; reflexivity. Qed.
Lemma ext_VulnerabilityAnalysis (x y : VulnerabilityAnalysis) :
  VulnerabilityAnalysis_State x = VulnerabilityAnalysis_State y ->
  VulnerabilityAnalysis_Justification x = VulnerabilityAnalysis_Justification y ->
  VulnerabilityAnalysis_Response x = VulnerabilityAnalysis_Response y ->
  VulnerabilityAnalysis_Detail x = VulnerabilityAnalysis_Detail y ->
  VulnerabilityAnalysis_FirstIssued x = VulnerabilityAnalysis_FirstIssued y ->
  VulnerabilityAnalysis_LastUpdated x = VulnerabilityAnalysis_LastUpdated y ->
  x = y.
Proof. destruct x, y; cbn; intros; subst; reflexivity. Qed.
Lemma ext_Vulnerability (x y : Vulnerability) :
  Vulnerability_BOMRef x = Vulnerability_BOMRef y ->
  Vulnerability_ID x = Vulnerability_ID y ->
  Vulnerability_Source x = Vulnerability_Source y ->
  Vulnerability_References x = Vulnerability_References y ->
  Vulnerability_Ratings x = Vulnerability_Ratings y ->
  Vulnerability_CWEs x = Vulnerability_CWEs y ->
  Vulnerability_Description x = Vulnerability_Description y ->
  Vulnerability_Detail x = Vulnerability_Detail y ->
  Vulnerability_Recommendation x = Vulnerability_Recommendation y ->
  Vulnerability_Workaround x = Vulnerability_Workaround y ->
  Vulnerability_ProofOfConcept x = Vulnerability_ProofOfConcept y ->
  Vulnerability_Advisories x = Vulnerability_Advisories y ->
  Vulnerability_Created x = Vulnerability_Created y ->
  Vulnerability_Published x = Vulnerability_Published y ->
  Vulnerability_Updated x = Vulnerability_Updated y ->
  Vulnerability_Rejected x = Vulnerability_Rejected y ->
  Vulnerability_Credits x = Vulnerability_Credits y ->
  Vulnerability_Tools x = Vulnerability_Tools y ->
  Vulnerability_Analysis x = Vulnerability_Analysis y ->
  Vulnerability_Affects x = Vulnerability_Affects y ->
  Vulnerability_Properties x = Vulnerability_Properties y ->
  x = y.
Proof. destruct x, y; cbn; intros; subst; reflexivity. Qed.
Lemma ext_ResourceReferenceChoice (x y : ResourceReferenceChoice) :
  ResourceReferenceChoice_Ref x = ResourceReferenceChoice_Ref y ->
  ResourceReferenceChoice_ExternalReference x = ResourceReferenceChoice_ExternalReference y ->
  x = y.
Proof. destruct x, y; cbn; intros; subst; reflexivity. Qed.
Lemma ext_Event (x y : Event) :
  Event_UID x = Event_UID y ->
  Event_Description x = Event_Description y ->
  Event_TimeReceived x = Event_TimeReceived y ->
  Event_Data x = Event_Data y ->
  Event_Source x = Event_Source y ->
  Event_Target x = Event_Target y ->
  Event_Properties x = Event_Properties y ->
  x = y.
Proof. destruct x, y; cbn; intros; subst; reflexivity. Qed.
Lemma ext_TaskTriggerCondition (x y : TaskTriggerCondition) :
  TaskTriggerCondition_Description x = TaskTriggerCondition_Description y ->
  TaskTriggerCondition_Expression x = TaskTriggerCondition_Expression y ->
  TaskTriggerCondition_Properties x = TaskTriggerCondition_Properties y ->
  x = y.
Proof. destruct x, y; cbn; intros; subst; reflexivity. Qed.
Lemma ext_Parameter_t (x y : Parameter_t) :
  Parameter_t_Name x = Parameter_t_Name y ->
  Parameter_t_Value x = Parameter_t_Value y ->
  Parameter_t_DataType x = Parameter_t_DataType y ->
  x = y.
Proof. destruct x, y; cbn; intros; subst; reflexivity. Qed.
Lemma ext_TaskInput (x y : TaskInput) :
  TaskInput_Resource x = TaskInput_Resource y ->
  TaskInput_Parameters x = TaskInput_Parameters y ->
  TaskInput_EnvironmentVars x = TaskInput_EnvironmentVars y ->
  TaskInput_Data x = TaskInput_Data y ->
  TaskInput_Source x = TaskInput_Source y ->
  TaskInput_Target x = TaskInput_Target y ->
  TaskInput_Properties x = TaskInput_Properties y ->
  x = y.
Proof. destruct x, y; cbn; intros; subst; reflexivity. Qed.
Lemma ext_TaskOutput (x y : TaskOutput) :
  TaskOutput_Resource x = TaskOutput_Resource y ->
  TaskOutput_Parameters x = TaskOutput_Parameters y ->
  TaskOutput_EnvironmentVars x = TaskOutput_EnvironmentVars y ->
  TaskOutput_Data x = TaskOutput_Data y ->
  TaskOutput_Type x = TaskOutput_Type y ->
  TaskOutput_Source x = TaskOutput_Source y ->
  TaskOutput_Target x = TaskOutput_Target y ->
  TaskOutput_Properties x = TaskOutput_Properties y ->
  x = y.
Proof. destruct x, y; cbn; intros; subst; reflexivity. Qed.
Lemma ext_TaskTrigger (x y : TaskTrigger) :
  TaskTrigger_BOMRef x = TaskTrigger_BOMRef y ->
  TaskTrigger_UID x = TaskTrigger_UID y ->
  TaskTrigger_Name x = TaskTrigger_Name y ->
  TaskTrigger_Description x = TaskTrigger_Description y ->
  TaskTrigger_ResourceReferences x = TaskTrigger_ResourceReferences y ->
  TaskTrigger_Type x = TaskTrigger_Type y ->
  TaskTrigger_Event x = TaskTrigger_Event y ->
  TaskTrigger_Conditions x = TaskTrigger_Conditions y ->
  TaskTrigger_TimeActivated x = TaskTrigger_TimeActivated y ->
  TaskTrigger_Inputs x = TaskTrigger_Inputs y ->
  TaskTrigger_Outputs x = TaskTrigger_Outputs y ->
  TaskTrigger_Properties x = TaskTrigger_Properties y ->
  x = y.
Proof. destruct x, y; cbn; intros; subst; reflexivity. Qed.
Lemma ext_TaskCommand (x y : TaskCommand) :
  TaskCommand_Executed x = TaskCommand_Executed y ->
  TaskCommand_Properties x = TaskCommand_Properties y ->
  x = y.
Proof. destruct x, y; cbn; intros; subst; reflexivity. Qed.
Lemma ext_TaskStep (x y : TaskStep) :
  TaskStep_Name x = TaskStep_Name y ->
  TaskStep_Description x = TaskStep_Description y ->
  TaskStep_Commands x = TaskStep_Commands y ->
  TaskStep_Properties x = TaskStep_Properties y ->
  x = y.
Proof. destruct x, y; cbn; intros; subst; reflexivity. Qed.
Lemma ext_Volume (x y : Volume) :
  Volume_UID x = Volume_UID y ->
  Volume_Name x = Volume_Name y ->
  Volume_Mode x = Volume_Mode y ->
  Volume_Path x = Volume_Path y ->
  Volume_SizeAllocated x = Volume_SizeAllocated y ->
  Volume_Persistent x = Volume_Persistent y ->
  Volume_Remote x = Volume_Remote y ->
  Volume_Properties x = Volume_Properties y ->
  x = y.
Proof. destruct x, y; cbn; intros; subst; reflexivity. Qed.
Lemma ext_TaskWorkspace (x y : TaskWorkspace) :
  TaskWorkspace_BOMRef x = TaskWorkspace_BOMRef y ->
  TaskWorkspace_UID x = TaskWorkspace_UID y ->
  TaskWorkspace_Name x = TaskWorkspace_Name y ->
  TaskWorkspace_Aliases x = TaskWorkspace_Aliases y ->
  TaskWorkspace_Description x = TaskWorkspace_Description y ->
  TaskWorkspace_ResourceReferences x = TaskWorkspace_ResourceReferences y ->
  TaskWorkspace_AccessMode x = TaskWorkspace_AccessMode y ->
  TaskWorkspace_MountPath x = TaskWorkspace_MountPath y ->
  TaskWorkspace_ManagedDataType x = TaskWorkspace_ManagedDataType y ->
  TaskWorkspace_VolumeRequest x = TaskWorkspace_VolumeRequest y ->
  TaskWorkspace_Volume x = TaskWorkspace_Volume y ->
  TaskWorkspace_Properties x = TaskWorkspace_Properties y ->
  x = y.
Proof. destruct x, y; cbn; intros; subst; reflexivity. Qed.
Lemma ext_Task (x y : Task) :
  Task_BOMRef x = Task_BOMRef y ->
  Task_UID x = Task_UID y ->
  Task_Name x = Task_Name y ->
  Task_Description x = Task_Description y ->
  Task_Properties x = Task_Properties y ->
  Task_ResourceReferences x = Task_ResourceReferences y ->
  Task_TaskTypes x = Task_TaskTypes y ->
  Task_Trigger x = Task_Trigger y ->
  Task_Steps x = Task_Steps y ->
  Task_Inputs x = Task_Inputs y ->
  Task_Outputs x = Task_Outputs y ->
  Task_TimeStart x = Task_TimeStart y ->
  Task_TimeEnd x = Task_TimeEnd y ->
  Task_Workspaces x = Task_Workspaces y ->
  Task_RuntimeTopology x = Task_RuntimeTopology y ->
  x = y.
Proof. destruct x, y; cbn; intros; subst; reflexivity. Qed.
Lemma ext_Workflow (x y : Workflow) :
  Workflow_BOMRef x = Workflow_BOMRef y ->
  Workflow_UID x = Workflow_UID y ->
  Workflow_Name x = Workflow_Name y ->
  Workflow_Description x = Workflow_Description y ->
  Workflow_ResourceReferences x = Workflow_ResourceReferences y ->
  Workflow_Tasks x = Workflow_Tasks y ->
  Workflow_TaskDependencies x = Workflow_TaskDependencies y ->
  Workflow_TaskTypes x = Workflow_TaskTypes y ->
  Workflow_Trigger x = Workflow_Trigger y ->
  Workflow_Steps x = Workflow_Steps y ->
  Workflow_Inputs x = Workflow_Inputs y ->
  Workflow_Outputs x = Workflow_Outputs y ->
  Workflow_TimeStart x = Workflow_TimeStart y ->
  Workflow_TimeEnd x = Workflow_TimeEnd y ->
  Workflow_Workspaces x = Workflow_Workspaces y ->
  Workflow_RuntimeTopology x = Workflow_RuntimeTopology y ->
  Workflow_Properties x = Workflow_Properties y ->
  x = y.
Proof. destruct x, y; cbn; intros; subst; reflexivity. Qed.
Lemma ext_Formula (x y : Formula) :
  Formula_BOMRef x = Formula_BOMRef y ->
  Formula_Components x = Formula_Components y ->
  Formula_Services x = Formula_Services y ->
  Formula_Workflows x = Formula_Workflows y ->
  Formula_Properties x = Formula_Properties y ->
  x = y.
Proof. destruct x, y; cbn; intros; subst; reflexivity. Qed.
Lemma ext_Claim (x y : Claim) :
  Claim_BOMRef x = Claim_BOMRef y ->
  Claim_Target x = Claim_Target y ->
  Claim_Predicate x = Claim_Predicate y ->
  Claim_MitigationStrategies x = Claim_MitigationStrategies y ->
  Claim_Reasoning x = Claim_Reasoning y ->
  Claim_Evidence x = Claim_Evidence y ->
  Claim_CounterEvidence x = Claim_CounterEvidence y ->
  Claim_ExternalReferences x = Claim_ExternalReferences y ->
  Claim_Signature x = Claim_Signature y ->
  x = y.
Proof. destruct x, y; cbn; intros; subst; reflexivity. Qed.
Lemma ext_EvidenceDataContents (x y : EvidenceDataContents) :
  EvidenceDataContents_Attachment x = EvidenceDataContents_Attachment y ->
  EvidenceDataContents_URL x = EvidenceDataContents_URL y ->
  x = y.
Proof. destruct x, y; cbn; intros; subst; reflexivity. Qed.
Lemma ext_EvidenceData (x y : EvidenceData) :
  EvidenceData_Name x = EvidenceData_Name y ->
  EvidenceData_Contents x = EvidenceData_Contents y ->
  EvidenceData_Classification x = EvidenceData_Classification y ->
  EvidenceData_SensitiveData x = EvidenceData_SensitiveData y ->
  EvidenceData_Governance x = EvidenceData_Governance y ->
  x = y.
Proof. destruct x, y; cbn; intros; subst; reflexivity. Qed.
Lemma ext_DeclarationEvidence (x y : DeclarationEvidence) :
  DeclarationEvidence_BOMRef x = DeclarationEvidence_BOMRef y ->
  DeclarationEvidence_PropertyName x = DeclarationEvidence_PropertyName y ->
  DeclarationEvidence_Description x = DeclarationEvidence_Description y ->
  DeclarationEvidence_Data x = DeclarationEvidence_Data y ->
  DeclarationEvidence_Created x = DeclarationEvidence_Created y ->
  DeclarationEvidence_Expires x = DeclarationEvidence_Expires y ->
  DeclarationEvidence_Author x = DeclarationEvidence_Author y ->
  DeclarationEvidence_Reviewer x = DeclarationEvidence_Reviewer y ->
  DeclarationEvidence_Signature x = DeclarationEvidence_Signature y ->
  x = y.
Proof. destruct x, y; cbn; intros; subst; reflexivity. Qed.
Lemma ext_Targets (x y : Targets) :
  Targets_Organizations x = Targets_Organizations y ->
  Targets_Components x = Targets_Components y ->
  Targets_Services x = Targets_Services y ->
  x = y.
Proof. destruct x, y; cbn; intros; subst; reflexivity. Qed.
Lemma ext_Signatory (x y : Signatory) :
  Signatory_Name x = Signatory_Name y ->
  Signatory_Role x = Signatory_Role y ->
  Signatory_Signature x = Signatory_Signature y ->
  Signatory_Organization x = Signatory_Organization y ->
  Signatory_ExternalReference x = Signatory_ExternalReference y ->
  x = y.
Proof. destruct x, y; cbn; intros; subst; reflexivity. Qed.
Lemma ext_Affirmation (x y : Affirmation) :
  Affirmation_Statement x = Affirmation_Statement y ->
  Affirmation_Signatories x = Affirmation_Signatories y ->
  Affirmation_Signature x = Affirmation_Signature y ->
  x = y.
Proof. destruct x, y; cbn; intros; subst; reflexivity. Qed.
Lemma ext_Declarations (x y : Declarations) :
  Declarations_Assessors x = Declarations_Assessors y ->
  Declarations_Attestations x = Declarations_Attestations y ->
  Declarations_Claims x = Declarations_Claims y ->
  Declarations_Evidence x = Declarations_Evidence y ->
  Declarations_Targets x = Declarations_Targets y ->
  Declarations_Affirmation x = Declarations_Affirmation y ->
  Declarations_Signature x = Declarations_Signature y ->
  x = y.
Proof. destruct x, y; cbn; intros; subst; reflexivity. Qed.
Lemma ext_StandardRequirement (x y : StandardRequirement) :
  StandardRequirement_BOMRef x = StandardRequirement_BOMRef y ->
  StandardRequirement_Identifier x = StandardRequirement_Identifier y ->
  StandardRequirement_Title x = StandardRequirement_Title y ->
  StandardRequirement_Text x = StandardRequirement_Text y ->
  StandardRequirement_Descriptions x = StandardRequirement_Descriptions y ->
  StandardRequirement_OpenCRE x = StandardRequirement_OpenCRE y ->
  StandardRequirement_Parent x = StandardRequirement_Parent y ->
  StandardRequirement_Properties x = StandardRequirement_Properties y ->
  StandardRequirement_ExternalReferences x = StandardRequirement_ExternalReferences y ->
  x = y.
Proof. destruct x, y; cbn; intros; subst; reflexivity. Qed.
Lemma ext_StandardLevel (x y : StandardLevel) :
  StandardLevel_BOMRef x = StandardLevel_BOMRef y ->
  StandardLevel_Identifier x = StandardLevel_Identifier y ->
  StandardLevel_Title x = StandardLevel_Title y ->
  StandardLevel_Description x = StandardLevel_Description y ->
  StandardLevel_Requirements x = StandardLevel_Requirements y ->
  x = y.
Proof. destruct x, y; cbn; intros; subst; reflexivity. Qed.
Lemma ext_StandardDefinition (x y : StandardDefinition) :
  StandardDefinition_BOMRef x = StandardDefinition_BOMRef y ->
  StandardDefinition_Name x = StandardDefinition_Name y ->
  StandardDefinition_Version x = StandardDefinition_Version y ->
  StandardDefinition_Description x = StandardDefinition_Description y ->
  StandardDefinition_Owner x = StandardDefinition_Owner y ->
  StandardDefinition_Requirements x = StandardDefinition_Requirements y ->
  StandardDefinition_Levels x = StandardDefinition_Levels y ->
  StandardDefinition_ExternalReferences x = StandardDefinition_ExternalReferences y ->
  StandardDefinition_Signature x = StandardDefinition_Signature y ->
  x = y.
Proof. destruct x, y; cbn; intros; subst; reflexivity. Qed.
Lemma ext_PriorityApplication (x y : PriorityApplication) :
  PriorityApplication_ApplicationNumber x = PriorityApplication_ApplicationNumber y ->
  PriorityApplication_Jurisdiction x = PriorityApplication_Jurisdiction y ->
  PriorityApplication_FilingDate x = PriorityApplication_FilingDate y ->
  x = y.
Proof. destruct x, y; cbn; intros; subst; reflexivity. Qed.
Lemma ext_Patent (x y : Patent) :
  Patent_BOMRef x = Patent_BOMRef y ->
  Patent_PatentNumber x = Patent_PatentNumber y ->
  Patent_ApplicationNumber x = Patent_ApplicationNumber y ->
  Patent_Jurisdiction x = Patent_Jurisdiction y ->
  Patent_PriorityApplication x = Patent_PriorityApplication y ->
  Patent_PublicationNumber x = Patent_PublicationNumber y ->
  Patent_Title x = Patent_Title y ->
  Patent_Abstract x = Patent_Abstract y ->
  Patent_FilingDate x = Patent_FilingDate y ->
  Patent_GrantDate x = Patent_GrantDate y ->
  Patent_PatentExpirationDate x = Patent_PatentExpirationDate y ->
  Patent_PatentLegalStatus x = Patent_PatentLegalStatus y ->
  Patent_PatentAssignee x = Patent_PatentAssignee y ->
  Patent_ExternalReferences x = Patent_ExternalReferences y ->
  x = y.
Proof. destruct x, y; cbn; intros; subst; reflexivity. Qed.
Lemma ext_PatentFamily (x y : PatentFamily) :
  PatentFamily_BOMRef x = PatentFamily_BOMRef y ->
  PatentFamily_FamilyID x = PatentFamily_FamilyID y ->
  PatentFamily_PriorityApplication x = PatentFamily_PriorityApplication y ->
  PatentFamily_Members x = PatentFamily_Members y ->
  PatentFamily_ExternalReferences x = PatentFamily_ExternalReferences y ->
  x = y.
Proof. destruct x, y; cbn; intros; subst; reflexivity. Qed.
Lemma ext_PatentChoice (x y : PatentChoice) :
  PatentChoice_Patent x = PatentChoice_Patent y ->
  PatentChoice_PatentFamily x = PatentChoice_PatentFamily y ->
  x = y.
Proof. destruct x, y; cbn; intros; subst; reflexivity. Qed.
Lemma ext_Definitions (x y : Definitions) :
  Definitions_Standards x = Definitions_Standards y ->
  Definitions_Patents x = Definitions_Patents y ->
  x = y.
Proof. destruct x, y; cbn; intros; subst; reflexivity. Qed.
Lemma ext_Citation (x y : Citation) :
  Citation_BOMRef x = Citation_BOMRef y ->
  Citation_Pointers x = Citation_Pointers y ->
  Citation_Expressions x = Citation_Expressions y ->
  Citation_Timestamp x = Citation_Timestamp y ->
  Citation_AttributedTo x = Citation_AttributedTo y ->
  Citation_Process x = Citation_Process y ->
  Citation_Note x = Citation_Note y ->
  Citation_Signature x = Citation_Signature y ->
  x = y.
Proof. destruct x, y; cbn; intros; subst; reflexivity. Qed.
Lemma ext_BOM (x y : BOM) :
  BOM_XMLName x = BOM_XMLName y ->
  BOM_XMLNS x = BOM_XMLNS y ->
  BOM_JSONSchema x = BOM_JSONSchema y ->
  BOM_BOMFormat x = BOM_BOMFormat y ->
  BOM_SpecVersion x = BOM_SpecVersion y ->
  BOM_SerialNumber x = BOM_SerialNumber y ->
  BOM_Version x = BOM_Version y ->
  BOM_Metadata x = BOM_Metadata y ->
  BOM_Components x = BOM_Components y ->
  BOM_Services x = BOM_Services y ->
  BOM_ExternalReferences x = BOM_ExternalReferences y ->
  BOM_Dependencies x = BOM_Dependencies y ->
  BOM_Compositions x = BOM_Compositions y ->
  BOM_Properties x = BOM_Properties y ->
  BOM_Vulnerabilities x = BOM_Vulnerabilities y ->
  BOM_Annotations x = BOM_Annotations y ->
  BOM_Formulation x = BOM_Formulation y ->
  BOM_Declarations x = BOM_Declarations y ->
  BOM_Definitions x = BOM_Definitions y ->
  BOM_Citations x = BOM_Citations y ->
  BOM_Signature x = BOM_Signature y ->
  x = y.
Proof. destruct x, y; cbn; intros; subst; reflexivity. Qed.
