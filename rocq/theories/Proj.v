(** GENERATED by tools/gen_proj.py: reduce every projection of an explicit record. *)
From Verif Require Import Base Types.
Ltac projs := cbn [
  Property_Name Property_Value EnvironmentVariableChoice_Property EnvironmentVariableChoice_Value AttachedText_Content 
  AttachedText_ContentType AttachedText_Encoding PostalAddress_BOMRef PostalAddress_Country PostalAddress_Region PostalAddress_Locality 
  PostalAddress_PostOfficeBoxNumber PostalAddress_PostalCode PostalAddress_StreetAddress OrganizationalContact_BOMRef 
  OrganizationalContact_Name OrganizationalContact_Email OrganizationalContact_Phone OrganizationalEntity_BOMRef OrganizationalEntity_Name 
  OrganizationalEntity_Address OrganizationalEntity_URL OrganizationalEntity_Contact OrganizationalEntityOrContact_Organization 
  OrganizationalEntityOrContact_Individual Licensing_AltIDs Licensing_Licensor Licensing_Licensee Licensing_Purchaser 
  Licensing_PurchaseOrder Licensing_LicenseTypes Licensing_LastRenewal Licensing_Expiration License_BOMRef License_ID License_Name 
  License_Acknowledgement License_Text License_URL License_Licensing License_Properties LicenseExpressionDetail_LicenseIdentifier 
  LicenseExpressionDetail_BOMRef LicenseExpressionDetail_Text LicenseExpressionDetail_URL LicenseChoice_License LicenseChoice_Expression 
  LicenseChoice_ExpressionDetails LicenseChoice_Acknowledgement LicenseChoice_BOMRef LicenseChoice_Licensing LicenseChoice_Properties 
  Advisory_Title Advisory_URL AffectedVersions_Version AffectedVersions_Range AffectedVersions_Status Affects_Ref Affects_Range 
  Hash_Algorithm Hash_Value SWID_Text SWID_URL SWID_TagID SWID_Name SWID_Version SWID_TagVersion SWID_Patch IdentifiableAction_Timestamp 
  IdentifiableAction_Name IdentifiableAction_Email Commit_UID Commit_URL Commit_Author Commit_Committer Commit_Message Diff_Text Diff_URL 
  Source_Name Source_URL Issue_ID Issue_Name Issue_Description Issue_Source Issue_References Issue_Type Patch_Diff Patch_Resolves Patch_Type 
  Pedigree_Ancestors Pedigree_Descendants Pedigree_Variants Pedigree_Commits Pedigree_Patches Pedigree_Notes ExternalReference_URL 
  ExternalReference_Comment ExternalReference_Hashes ExternalReference_Type ExternalReference_Properties EvidenceIdentityMethod_Technique 
  EvidenceIdentityMethod_Confidence EvidenceIdentityMethod_Value EvidenceIdentity_Field EvidenceIdentity_Confidence 
  EvidenceIdentity_ConcludedValue EvidenceIdentity_Methods EvidenceIdentity_Tools EvidenceIdentityChoice_Identity 
  EvidenceIdentityChoice_Identities EvidenceOccurrence_BOMRef EvidenceOccurrence_Location EvidenceOccurrence_Line EvidenceOccurrence_Offset 
  EvidenceOccurrence_Symbol EvidenceOccurrence_AdditionalContext CallstackFrame_Package CallstackFrame_Module CallstackFrame_Function 
  CallstackFrame_Parameters CallstackFrame_Line CallstackFrame_Column CallstackFrame_FullFilename Callstack_Frames Copyright_Text 
  Evidence_Identity Evidence_Occurrences Evidence_Callstack Evidence_Licenses Evidence_Copyright Note_Locale Note_Text ReleaseNotes_Type 
  ReleaseNotes_Title ReleaseNotes_FeaturedImage ReleaseNotes_SocialImage ReleaseNotes_Description ReleaseNotes_Timestamp 
  ReleaseNotes_Aliases ReleaseNotes_Tags ReleaseNotes_Resolves ReleaseNotes_Notes ReleaseNotes_Properties MLModelParametersApproach_Type 
  ComponentDataContents_Attachment ComponentDataContents_URL ComponentDataContents_Properties ComponentDataGraphic_Name 
  ComponentDataGraphic_Image ComponentDataGraphics_Description ComponentDataGraphics_Collection 
  ComponentDataGovernanceResponsibleParty_Organization ComponentDataGovernanceResponsibleParty_Contact DataGovernance_Custodians 
  DataGovernance_Stewards DataGovernance_Owners ComponentData_BOMRef ComponentData_Type ComponentData_Name ComponentData_Contents 
  ComponentData_Classification ComponentData_SensitiveData ComponentData_Graphics ComponentData_Description ComponentData_Governance 
  MLDatasetChoice_Ref MLDatasetChoice_ComponentData MLInputOutputParameters_Format MLModelParameters_Approach MLModelParameters_Task 
  MLModelParameters_ArchitectureFamily MLModelParameters_ModelArchitecture MLModelParameters_Datasets MLModelParameters_Inputs 
  MLModelParameters_Outputs MLPerformanceMetricConfidenceInterval_LowerBound MLPerformanceMetricConfidenceInterval_UpperBound 
  MLPerformanceMetric_Type MLPerformanceMetric_Value MLPerformanceMetric_Slice MLPerformanceMetric_ConfidenceInterval 
  MLQuantitativeAnalysis_PerformanceMetrics MLQuantitativeAnalysis_Graphics MLModelCardEthicalConsideration_Name 
  MLModelCardEthicalConsideration_MitigationStrategy MLModelEnergyMeasure_Value MLModelEnergyMeasure_Unit MLModelEnergyProvider_BOMRef 
  MLModelEnergyProvider_Description MLModelEnergyProvider_Organization MLModelEnergyProvider_EnergySource 
  MLModelEnergyProvider_EnergyProvided MLModelEnergyProvider_ExternalReferences MLModelCO2Measure_Value MLModelCO2Measure_Unit 
  MLModelEnergyConsumption_Activity MLModelEnergyConsumption_EnergyProviders MLModelEnergyConsumption_ActivityEnergyCost 
  MLModelEnergyConsumption_CO2CostEquivalent MLModelEnergyConsumption_CO2CostOffset MLModelEnergyConsumption_Properties 
  MLModelCardEnvironmentalConsiderations_EnergyConsumptions MLModelCardEnvironmentalConsiderations_Properties 
  MLModelCardFairnessAssessment_GroupAtRisk MLModelCardFairnessAssessment_Benefits MLModelCardFairnessAssessment_Harms 
  MLModelCardFairnessAssessment_MitigationStrategy MLModelCardConsiderations_Users MLModelCardConsiderations_UseCases 
  MLModelCardConsiderations_TechnicalLimitations MLModelCardConsiderations_PerformanceTradeoffs 
  MLModelCardConsiderations_EthicalConsiderations MLModelCardConsiderations_EnvironmentalConsiderations 
  MLModelCardConsiderations_FairnessAssessments MLModelCard_BOMRef MLModelCard_ModelParameters MLModelCard_QuantitativeAnalysis 
  MLModelCard_Considerations CryptoAlgorithmProperties_Primitive CryptoAlgorithmProperties_ParameterSetIdentifier 
  CryptoAlgorithmProperties_AlgorithmFamily CryptoAlgorithmProperties_Curve CryptoAlgorithmProperties_EllipticCurve 
  CryptoAlgorithmProperties_ExecutionEnvironment CryptoAlgorithmProperties_ImplementationPlatform 
  CryptoAlgorithmProperties_CertificationLevel CryptoAlgorithmProperties_Mode CryptoAlgorithmProperties_Padding 
  CryptoAlgorithmProperties_CryptoFunctions CryptoAlgorithmProperties_ClassicalSecurityLevel 
  CryptoAlgorithmProperties_NistQuantumSecurityLevel PredefinedCertificateState_State PredefinedCertificateState_Reason 
  CustomCertificateState_Name CustomCertificateState_Description CustomCertificateState_Reason CertificateState_Predefined 
  CertificateState_Custom CommonCertificateExtension_Name CommonCertificateExtension_Value CustomCertificateExtension_Name 
  CustomCertificateExtension_Value CertificateExtension_Common CertificateExtension_Custom RelatedCryptographicAsset_Type 
  RelatedCryptographicAsset_Ref CertificateProperties_SerialNumber CertificateProperties_SubjectName CertificateProperties_IssuerName 
  CertificateProperties_NotValidBefore CertificateProperties_NotValidAfter CertificateProperties_SignatureAlgorithmRef 
  CertificateProperties_SubjectPublicKeyRef CertificateProperties_CertificateFormat CertificateProperties_CertificateExtension 
  CertificateProperties_CertificateFileExtension CertificateProperties_Fingerprint CertificateProperties_CertificateState 
  CertificateProperties_CertificateExtensions CertificateProperties_RelatedCryptographicAssets CertificateProperties_CreationDate 
  CertificateProperties_ActivationDate CertificateProperties_DeactivationDate CertificateProperties_RevocationDate 
  CertificateProperties_DestructionDate SecuredBy_Mechanism SecuredBy_AlgorithmRef RelatedCryptoMaterialProperties_Type 
  RelatedCryptoMaterialProperties_ID RelatedCryptoMaterialProperties_State RelatedCryptoMaterialProperties_AlgorithmRef 
  RelatedCryptoMaterialProperties_CreationDate RelatedCryptoMaterialProperties_ActivationDate RelatedCryptoMaterialProperties_UpdateDate 
  RelatedCryptoMaterialProperties_ExpirationDate RelatedCryptoMaterialProperties_Value RelatedCryptoMaterialProperties_Size 
  RelatedCryptoMaterialProperties_Format RelatedCryptoMaterialProperties_SecuredBy RelatedCryptoMaterialProperties_Fingerprint 
  RelatedCryptoMaterialProperties_RelatedCryptographicAssets CipherSuite_Name CipherSuite_Algorithms CipherSuite_Identifiers 
  CipherSuite_TLSGroups CipherSuite_TLSSignatureSchemes IKEv2Enc_BOMRef IKEv2Enc_Name IKEv2Enc_KeyLength IKEv2Enc_Algorithm IKEv2Prf_BOMRef 
  IKEv2Prf_Name IKEv2Prf_Algorithm IKEv2Integ_BOMRef IKEv2Integ_Name IKEv2Integ_Algorithm IKEv2Ke_BOMRef IKEv2Ke_Group IKEv2Ke_Algorithm 
  IKEv2Auth_BOMRef IKEv2Auth_Name IKEv2Auth_Algorithm IKEv2TransformTypes_Encr IKEv2TransformTypes_PRF IKEv2TransformTypes_Integ 
  IKEv2TransformTypes_KE IKEv2TransformTypes_ESN IKEv2TransformTypes_Auth CryptoProtocolProperties_Type CryptoProtocolProperties_Version 
  CryptoProtocolProperties_CipherSuites CryptoProtocolProperties_IKEv2TransformTypes CryptoProtocolProperties_CryptoRefArray 
  CryptoProtocolProperties_RelatedCryptographicAssets CryptoProperties_AssetType CryptoProperties_AlgorithmProperties 
  CryptoProperties_CertificateProperties CryptoProperties_RelatedCryptoMaterialProperties CryptoProperties_ProtocolProperties 
  CryptoProperties_OID AsserterChoice_Organization AsserterChoice_Individual AsserterChoice_BOMRef PatentAssertion_BOMRef 
  PatentAssertion_PatentRefs PatentAssertion_AssertionType PatentAssertion_Asserter PatentAssertion_Notes JSFPublicKey_KTY JSFPublicKey_CRV 
  JSFPublicKey_X JSFPublicKey_Y JSFPublicKey_N JSFPublicKey_E JSFSigner_Algorithm JSFSigner_KeyID JSFSigner_PublicKey 
  JSFSigner_CertificatePath JSFSigner_Excludes JSFSigner_Value JSFSignature_JSFSigner JSFSignature_Signers JSFSignature_Chain 
  Component_BOMRef Component_MIMEType Component_Type Component_Supplier Component_Manufacturer Component_Author Component_Authors 
  Component_Publisher Component_Group Component_Name Component_Version Component_Description Component_Scope Component_Hashes 
  Component_Licenses Component_Copyright Component_CPE Component_PackageURL Component_OmniborID Component_SWHID Component_SWID 
  Component_Modified Component_Pedigree Component_ExternalReferences Component_Properties Component_Components Component_Evidence 
  Component_ReleaseNotes Component_ModelCard Component_Data Component_CryptoProperties Component_Tags Component_IsExternal 
  Component_PatentAssertions Component_VersionRange Component_Signature DataClassification_Flow DataClassification_Classification 
  DataClassification_Name DataClassification_Description DataClassification_Governance DataClassification_Source 
  DataClassification_Destination Service_BOMRef Service_Provider Service_Group Service_Name Service_Version Service_Description 
  Service_Endpoints Service_Authenticated Service_CrossesTrustBoundary Service_Data Service_Licenses Service_ExternalReferences 
  Service_Properties Service_Services Service_ReleaseNotes Service_Tags Service_TrustZone Service_PatentAssertions Service_Signature 
  Annotator_Organization Annotator_Individual Annotator_Component Annotator_Service Annotation_BOMRef Annotation_Subjects 
  Annotation_Annotator Annotation_Timestamp Annotation_Text Annotation_Signature Assessor_BOMRef Assessor_ThirdParty Assessor_Organization 
  AttestationConformance_Score AttestationConformance_Rationale AttestationConformance_MitigationStrategies AttestationConfidence_Score 
  AttestationConfidence_Rationale AttestationMap_Requirement AttestationMap_Claims AttestationMap_CounterClaims AttestationMap_Conformance 
  AttestationMap_Confidence Attestation_Summary Attestation_Assessor Attestation_Map Attestation_Signature Lifecycle_Name Lifecycle_Phase 
  Lifecycle_Description Tool_Vendor Tool_Name Tool_Version Tool_Hashes Tool_ExternalReferences ToolsChoice_Tools ToolsChoice_Components 
  ToolsChoice_Services DistributionConstraints_TLP Metadata_Timestamp Metadata_Lifecycles Metadata_Tools Metadata_Authors Metadata_Component 
  Metadata_Manufacture Metadata_Manufacturer Metadata_Supplier Metadata_Licenses Metadata_Properties Metadata_DistributionConstraints 
  Dependency_Ref Dependency_Dependencies Dependency_Provides Composition_BOMRef Composition_Aggregate Composition_Assemblies 
  Composition_Dependencies Composition_Vulnerabilities Composition_Signature VulnerabilityReference_ID VulnerabilityReference_Source 
  VulnerabilityRating_Source VulnerabilityRating_Score VulnerabilityRating_Severity VulnerabilityRating_Method VulnerabilityRating_Vector 
  VulnerabilityRating_Justification ProofOfConcept_ReproductionSteps ProofOfConcept_Environment ProofOfConcept_SupportingMaterial 
  Credits_Organizations Credits_Individuals VulnerabilityAnalysis_State VulnerabilityAnalysis_Justification VulnerabilityAnalysis_Response 
  VulnerabilityAnalysis_Detail VulnerabilityAnalysis_FirstIssued VulnerabilityAnalysis_LastUpdated Vulnerability_BOMRef Vulnerability_ID 
  Vulnerability_Source Vulnerability_References Vulnerability_Ratings Vulnerability_CWEs Vulnerability_Description Vulnerability_Detail 
  Vulnerability_Recommendation Vulnerability_Workaround Vulnerability_ProofOfConcept Vulnerability_Advisories Vulnerability_Created 
  Vulnerability_Published Vulnerability_Updated Vulnerability_Rejected Vulnerability_Credits Vulnerability_Tools Vulnerability_Analysis 
  Vulnerability_Affects Vulnerability_Properties ResourceReferenceChoice_Ref ResourceReferenceChoice_ExternalReference Event_UID 
  Event_Description Event_TimeReceived Event_Data Event_Source Event_Target Event_Properties TaskTriggerCondition_Description 
  TaskTriggerCondition_Expression TaskTriggerCondition_Properties Parameter_t_Name Parameter_t_Value Parameter_t_DataType TaskInput_Resource 
  TaskInput_Parameters TaskInput_EnvironmentVars TaskInput_Data TaskInput_Source TaskInput_Target TaskInput_Properties TaskOutput_Resource 
  TaskOutput_Parameters TaskOutput_EnvironmentVars TaskOutput_Data TaskOutput_Type TaskOutput_Source TaskOutput_Target TaskOutput_Properties 
  TaskTrigger_BOMRef TaskTrigger_UID TaskTrigger_Name TaskTrigger_Description TaskTrigger_ResourceReferences TaskTrigger_Type 
  TaskTrigger_Event TaskTrigger_Conditions TaskTrigger_TimeActivated TaskTrigger_Inputs TaskTrigger_Outputs TaskTrigger_Properties 
  TaskCommand_Executed TaskCommand_Properties TaskStep_Name TaskStep_Description TaskStep_Commands TaskStep_Properties Volume_UID 
  Volume_Name Volume_Mode Volume_Path Volume_SizeAllocated Volume_Persistent Volume_Remote Volume_Properties TaskWorkspace_BOMRef 
  TaskWorkspace_UID TaskWorkspace_Name TaskWorkspace_Aliases TaskWorkspace_Description TaskWorkspace_ResourceReferences 
  TaskWorkspace_AccessMode TaskWorkspace_MountPath TaskWorkspace_ManagedDataType TaskWorkspace_VolumeRequest TaskWorkspace_Volume 
  TaskWorkspace_Properties Task_BOMRef Task_UID Task_Name Task_Description Task_Properties Task_ResourceReferences Task_TaskTypes 
  Task_Trigger Task_Steps Task_Inputs Task_Outputs Task_TimeStart Task_TimeEnd Task_Workspaces Task_RuntimeTopology Workflow_BOMRef 
  Workflow_UID Workflow_Name Workflow_Description Workflow_ResourceReferences Workflow_Tasks Workflow_TaskDependencies Workflow_TaskTypes 
  Workflow_Trigger Workflow_Steps Workflow_Inputs Workflow_Outputs Workflow_TimeStart Workflow_TimeEnd Workflow_Workspaces 
  Workflow_RuntimeTopology Workflow_Properties Formula_BOMRef Formula_Components Formula_Services Formula_Workflows Formula_Properties 
  Claim_BOMRef Claim_Target Claim_Predicate Claim_MitigationStrategies Claim_Reasoning Claim_Evidence Claim_CounterEvidence 
  Claim_ExternalReferences Claim_Signature EvidenceDataContents_Attachment EvidenceDataContents_URL EvidenceData_Name EvidenceData_Contents 
  EvidenceData_Classification EvidenceData_SensitiveData EvidenceData_Governance DeclarationEvidence_BOMRef DeclarationEvidence_PropertyName 
  DeclarationEvidence_Description DeclarationEvidence_Data DeclarationEvidence_Created DeclarationEvidence_Expires 
  DeclarationEvidence_Author DeclarationEvidence_Reviewer DeclarationEvidence_Signature Targets_Organizations Targets_Components 
  Targets_Services Signatory_Name Signatory_Role Signatory_Signature Signatory_Organization Signatory_ExternalReference 
  Affirmation_Statement Affirmation_Signatories Affirmation_Signature Declarations_Assessors Declarations_Attestations Declarations_Claims 
  Declarations_Evidence Declarations_Targets Declarations_Affirmation Declarations_Signature StandardRequirement_BOMRef 
  StandardRequirement_Identifier StandardRequirement_Title StandardRequirement_Text StandardRequirement_Descriptions 
  StandardRequirement_OpenCRE StandardRequirement_Parent StandardRequirement_Properties StandardRequirement_ExternalReferences 
  StandardLevel_BOMRef StandardLevel_Identifier StandardLevel_Title StandardLevel_Description StandardLevel_Requirements 
  StandardDefinition_BOMRef StandardDefinition_Name StandardDefinition_Version StandardDefinition_Description StandardDefinition_Owner 
  StandardDefinition_Requirements StandardDefinition_Levels StandardDefinition_ExternalReferences StandardDefinition_Signature 
  PriorityApplication_ApplicationNumber PriorityApplication_Jurisdiction PriorityApplication_FilingDate Patent_BOMRef Patent_PatentNumber 
  Patent_ApplicationNumber Patent_Jurisdiction Patent_PriorityApplication Patent_PublicationNumber Patent_Title Patent_Abstract 
  Patent_FilingDate Patent_GrantDate Patent_PatentExpirationDate Patent_PatentLegalStatus Patent_PatentAssignee Patent_ExternalReferences 
  PatentFamily_BOMRef PatentFamily_FamilyID PatentFamily_PriorityApplication PatentFamily_Members PatentFamily_ExternalReferences 
  PatentChoice_Patent PatentChoice_PatentFamily Definitions_Standards Definitions_Patents Citation_BOMRef Citation_Pointers 
  Citation_Expressions Citation_Timestamp Citation_AttributedTo Citation_Process Citation_Note Citation_Signature BOM_XMLName BOM_XMLNS 
  BOM_JSONSchema BOM_BOMFormat BOM_SpecVersion BOM_SerialNumber BOM_Version BOM_Metadata BOM_Components BOM_Services BOM_ExternalReferences 
  BOM_Dependencies BOM_Compositions BOM_Properties BOM_Vulnerabilities BOM_Annotations BOM_Formulation BOM_Declarations BOM_Definitions 
  BOM_Citations BOM_Signature ].
Ltac projs_in H := cbn [
  Property_Name Property_Value EnvironmentVariableChoice_Property EnvironmentVariableChoice_Value AttachedText_Content 
  AttachedText_ContentType AttachedText_Encoding PostalAddress_BOMRef PostalAddress_Country PostalAddress_Region PostalAddress_Locality 
  PostalAddress_PostOfficeBoxNumber PostalAddress_PostalCode PostalAddress_StreetAddress OrganizationalContact_BOMRef 
  OrganizationalContact_Name OrganizationalContact_Email OrganizationalContact_Phone OrganizationalEntity_BOMRef OrganizationalEntity_Name 
  OrganizationalEntity_Address OrganizationalEntity_URL OrganizationalEntity_Contact OrganizationalEntityOrContact_Organization 
  OrganizationalEntityOrContact_Individual Licensing_AltIDs Licensing_Licensor Licensing_Licensee Licensing_Purchaser 
  Licensing_PurchaseOrder Licensing_LicenseTypes Licensing_LastRenewal Licensing_Expiration License_BOMRef License_ID License_Name 
  License_Acknowledgement License_Text License_URL License_Licensing License_Properties LicenseExpressionDetail_LicenseIdentifier 
  LicenseExpressionDetail_BOMRef LicenseExpressionDetail_Text LicenseExpressionDetail_URL LicenseChoice_License LicenseChoice_Expression 
  LicenseChoice_ExpressionDetails LicenseChoice_Acknowledgement LicenseChoice_BOMRef LicenseChoice_Licensing LicenseChoice_Properties 
  Advisory_Title Advisory_URL AffectedVersions_Version AffectedVersions_Range AffectedVersions_Status Affects_Ref Affects_Range 
  Hash_Algorithm Hash_Value SWID_Text SWID_URL SWID_TagID SWID_Name SWID_Version SWID_TagVersion SWID_Patch IdentifiableAction_Timestamp 
  IdentifiableAction_Name IdentifiableAction_Email Commit_UID Commit_URL Commit_Author Commit_Committer Commit_Message Diff_Text Diff_URL 
  Source_Name Source_URL Issue_ID Issue_Name Issue_Description Issue_Source Issue_References Issue_Type Patch_Diff Patch_Resolves Patch_Type 
  Pedigree_Ancestors Pedigree_Descendants Pedigree_Variants Pedigree_Commits Pedigree_Patches Pedigree_Notes ExternalReference_URL 
  ExternalReference_Comment ExternalReference_Hashes ExternalReference_Type ExternalReference_Properties EvidenceIdentityMethod_Technique 
  EvidenceIdentityMethod_Confidence EvidenceIdentityMethod_Value EvidenceIdentity_Field EvidenceIdentity_Confidence 
  EvidenceIdentity_ConcludedValue EvidenceIdentity_Methods EvidenceIdentity_Tools EvidenceIdentityChoice_Identity 
  EvidenceIdentityChoice_Identities EvidenceOccurrence_BOMRef EvidenceOccurrence_Location EvidenceOccurrence_Line EvidenceOccurrence_Offset 
  EvidenceOccurrence_Symbol EvidenceOccurrence_AdditionalContext CallstackFrame_Package CallstackFrame_Module CallstackFrame_Function 
  CallstackFrame_Parameters CallstackFrame_Line CallstackFrame_Column CallstackFrame_FullFilename Callstack_Frames Copyright_Text 
  Evidence_Identity Evidence_Occurrences Evidence_Callstack Evidence_Licenses Evidence_Copyright Note_Locale Note_Text ReleaseNotes_Type 
  ReleaseNotes_Title ReleaseNotes_FeaturedImage ReleaseNotes_SocialImage ReleaseNotes_Description ReleaseNotes_Timestamp 
  ReleaseNotes_Aliases ReleaseNotes_Tags ReleaseNotes_Resolves ReleaseNotes_Notes ReleaseNotes_Properties MLModelParametersApproach_Type 
  ComponentDataContents_Attachment ComponentDataContents_URL ComponentDataContents_Properties ComponentDataGraphic_Name 
  ComponentDataGraphic_Image ComponentDataGraphics_Description ComponentDataGraphics_Collection 
  ComponentDataGovernanceResponsibleParty_Organization ComponentDataGovernanceResponsibleParty_Contact DataGovernance_Custodians 
  DataGovernance_Stewards DataGovernance_Owners ComponentData_BOMRef ComponentData_Type ComponentData_Name ComponentData_Contents 
  ComponentData_Classification ComponentData_SensitiveData ComponentData_Graphics ComponentData_Description ComponentData_Governance 
  MLDatasetChoice_Ref MLDatasetChoice_ComponentData MLInputOutputParameters_Format MLModelParameters_Approach MLModelParameters_Task 
  MLModelParameters_ArchitectureFamily MLModelParameters_ModelArchitecture MLModelParameters_Datasets MLModelParameters_Inputs 
  MLModelParameters_Outputs MLPerformanceMetricConfidenceInterval_LowerBound MLPerformanceMetricConfidenceInterval_UpperBound 
  MLPerformanceMetric_Type MLPerformanceMetric_Value MLPerformanceMetric_Slice MLPerformanceMetric_ConfidenceInterval 
  MLQuantitativeAnalysis_PerformanceMetrics MLQuantitativeAnalysis_Graphics MLModelCardEthicalConsideration_Name 
  MLModelCardEthicalConsideration_MitigationStrategy MLModelEnergyMeasure_Value MLModelEnergyMeasure_Unit MLModelEnergyProvider_BOMRef 
  MLModelEnergyProvider_Description MLModelEnergyProvider_Organization MLModelEnergyProvider_EnergySource 
  MLModelEnergyProvider_EnergyProvided MLModelEnergyProvider_ExternalReferences MLModelCO2Measure_Value MLModelCO2Measure_Unit 
  MLModelEnergyConsumption_Activity MLModelEnergyConsumption_EnergyProviders MLModelEnergyConsumption_ActivityEnergyCost 
  MLModelEnergyConsumption_CO2CostEquivalent MLModelEnergyConsumption_CO2CostOffset MLModelEnergyConsumption_Properties 
  MLModelCardEnvironmentalConsiderations_EnergyConsumptions MLModelCardEnvironmentalConsiderations_Properties 
  MLModelCardFairnessAssessment_GroupAtRisk MLModelCardFairnessAssessment_Benefits MLModelCardFairnessAssessment_Harms 
  MLModelCardFairnessAssessment_MitigationStrategy MLModelCardConsiderations_Users MLModelCardConsiderations_UseCases 
  MLModelCardConsiderations_TechnicalLimitations MLModelCardConsiderations_PerformanceTradeoffs 
  MLModelCardConsiderations_EthicalConsiderations MLModelCardConsiderations_EnvironmentalConsiderations 
  MLModelCardConsiderations_FairnessAssessments MLModelCard_BOMRef MLModelCard_ModelParameters MLModelCard_QuantitativeAnalysis 
  MLModelCard_Considerations CryptoAlgorithmProperties_Primitive CryptoAlgorithmProperties_ParameterSetIdentifier 
  CryptoAlgorithmProperties_AlgorithmFamily CryptoAlgorithmProperties_Curve CryptoAlgorithmProperties_EllipticCurve 
  CryptoAlgorithmProperties_ExecutionEnvironment CryptoAlgorithmProperties_ImplementationPlatform 
  CryptoAlgorithmProperties_CertificationLevel CryptoAlgorithmProperties_Mode CryptoAlgorithmProperties_Padding 
  CryptoAlgorithmProperties_CryptoFunctions CryptoAlgorithmProperties_ClassicalSecurityLevel 
  CryptoAlgorithmProperties_NistQuantumSecurityLevel PredefinedCertificateState_State PredefinedCertificateState_Reason 
  CustomCertificateState_Name CustomCertificateState_Description CustomCertificateState_Reason CertificateState_Predefined 
  CertificateState_Custom CommonCertificateExtension_Name CommonCertificateExtension_Value CustomCertificateExtension_Name 
  CustomCertificateExtension_Value CertificateExtension_Common CertificateExtension_Custom RelatedCryptographicAsset_Type 
  RelatedCryptographicAsset_Ref CertificateProperties_SerialNumber CertificateProperties_SubjectName CertificateProperties_IssuerName 
  CertificateProperties_NotValidBefore CertificateProperties_NotValidAfter CertificateProperties_SignatureAlgorithmRef 
  CertificateProperties_SubjectPublicKeyRef CertificateProperties_CertificateFormat CertificateProperties_CertificateExtension 
  CertificateProperties_CertificateFileExtension CertificateProperties_Fingerprint CertificateProperties_CertificateState 
  CertificateProperties_CertificateExtensions CertificateProperties_RelatedCryptographicAssets CertificateProperties_CreationDate 
  CertificateProperties_ActivationDate CertificateProperties_DeactivationDate CertificateProperties_RevocationDate 
  CertificateProperties_DestructionDate SecuredBy_Mechanism SecuredBy_AlgorithmRef RelatedCryptoMaterialProperties_Type 
  RelatedCryptoMaterialProperties_ID RelatedCryptoMaterialProperties_State RelatedCryptoMaterialProperties_AlgorithmRef 
  RelatedCryptoMaterialProperties_CreationDate RelatedCryptoMaterialProperties_ActivationDate RelatedCryptoMaterialProperties_UpdateDate 
  RelatedCryptoMaterialProperties_ExpirationDate RelatedCryptoMaterialProperties_Value RelatedCryptoMaterialProperties_Size 
  RelatedCryptoMaterialProperties_Format RelatedCryptoMaterialProperties_SecuredBy RelatedCryptoMaterialProperties_Fingerprint 
  RelatedCryptoMaterialProperties_RelatedCryptographicAssets CipherSuite_Name CipherSuite_Algorithms CipherSuite_Identifiers 
  CipherSuite_TLSGroups CipherSuite_TLSSignatureSchemes IKEv2Enc_BOMRef IKEv2Enc_Name IKEv2Enc_KeyLength IKEv2Enc_Algorithm IKEv2Prf_BOMRef 
  IKEv2Prf_Name IKEv2Prf_Algorithm IKEv2Integ_BOMRef IKEv2Integ_Name IKEv2Integ_Algorithm IKEv2Ke_BOMRef IKEv2Ke_Group IKEv2Ke_Algorithm 
  IKEv2Auth_BOMRef IKEv2Auth_Name IKEv2Auth_Algorithm IKEv2TransformTypes_Encr IKEv2TransformTypes_PRF IKEv2TransformTypes_Integ 
  IKEv2TransformTypes_KE IKEv2TransformTypes_ESN IKEv2TransformTypes_Auth CryptoProtocolProperties_Type CryptoProtocolProperties_Version 
  CryptoProtocolProperties_CipherSuites CryptoProtocolProperties_IKEv2TransformTypes CryptoProtocolProperties_CryptoRefArray 
  CryptoProtocolProperties_RelatedCryptographicAssets CryptoProperties_AssetType CryptoProperties_AlgorithmProperties 
  CryptoProperties_CertificateProperties CryptoProperties_RelatedCryptoMaterialProperties CryptoProperties_ProtocolProperties 
  CryptoProperties_OID AsserterChoice_Organization AsserterChoice_Individual AsserterChoice_BOMRef PatentAssertion_BOMRef 
  PatentAssertion_PatentRefs PatentAssertion_AssertionType PatentAssertion_Asserter PatentAssertion_Notes JSFPublicKey_KTY JSFPublicKey_CRV 
  JSFPublicKey_X JSFPublicKey_Y JSFPublicKey_N JSFPublicKey_E JSFSigner_Algorithm JSFSigner_KeyID JSFSigner_PublicKey 
  JSFSigner_CertificatePath JSFSigner_Excludes JSFSigner_Value JSFSignature_JSFSigner JSFSignature_Signers JSFSignature_Chain 
  Component_BOMRef Component_MIMEType Component_Type Component_Supplier Component_Manufacturer Component_Author Component_Authors 
  Component_Publisher Component_Group Component_Name Component_Version Component_Description Component_Scope Component_Hashes 
  Component_Licenses Component_Copyright Component_CPE Component_PackageURL Component_OmniborID Component_SWHID Component_SWID 
  Component_Modified Component_Pedigree Component_ExternalReferences Component_Properties Component_Components Component_Evidence 
  Component_ReleaseNotes Component_ModelCard Component_Data Component_CryptoProperties Component_Tags Component_IsExternal 
  Component_PatentAssertions Component_VersionRange Component_Signature DataClassification_Flow DataClassification_Classification 
  DataClassification_Name DataClassification_Description DataClassification_Governance DataClassification_Source 
  DataClassification_Destination Service_BOMRef Service_Provider Service_Group Service_Name Service_Version Service_Description 
  Service_Endpoints Service_Authenticated Service_CrossesTrustBoundary Service_Data Service_Licenses Service_ExternalReferences 
  Service_Properties Service_Services Service_ReleaseNotes Service_Tags Service_TrustZone Service_PatentAssertions Service_Signature 
  Annotator_Organization Annotator_Individual Annotator_Component Annotator_Service Annotation_BOMRef Annotation_Subjects 
  Annotation_Annotator Annotation_Timestamp Annotation_Text Annotation_Signature Assessor_BOMRef Assessor_ThirdParty Assessor_Organization 
  AttestationConformance_Score AttestationConformance_Rationale AttestationConformance_MitigationStrategies AttestationConfidence_Score 
  AttestationConfidence_Rationale AttestationMap_Requirement AttestationMap_Claims AttestationMap_CounterClaims AttestationMap_Conformance 
  AttestationMap_Confidence Attestation_Summary Attestation_Assessor Attestation_Map Attestation_Signature Lifecycle_Name Lifecycle_Phase 
  Lifecycle_Description Tool_Vendor Tool_Name Tool_Version Tool_Hashes Tool_ExternalReferences ToolsChoice_Tools ToolsChoice_Components 
  ToolsChoice_Services DistributionConstraints_TLP Metadata_Timestamp Metadata_Lifecycles Metadata_Tools Metadata_Authors Metadata_Component 
  Metadata_Manufacture Metadata_Manufacturer Metadata_Supplier Metadata_Licenses Metadata_Properties Metadata_DistributionConstraints 
  Dependency_Ref Dependency_Dependencies Dependency_Provides Composition_BOMRef Composition_Aggregate Composition_Assemblies 
  Composition_Dependencies Composition_Vulnerabilities Composition_Signature VulnerabilityReference_ID VulnerabilityReference_Source 
  VulnerabilityRating_Source VulnerabilityRating_Score VulnerabilityRating_Severity VulnerabilityRating_Method VulnerabilityRating_Vector 
  VulnerabilityRating_Justification ProofOfConcept_ReproductionSteps ProofOfConcept_Environment ProofOfConcept_SupportingMaterial 
  Credits_Organizations Credits_Individuals VulnerabilityAnalysis_State VulnerabilityAnalysis_Justification VulnerabilityAnalysis_Response 
  VulnerabilityAnalysis_Detail VulnerabilityAnalysis_FirstIssued VulnerabilityAnalysis_LastUpdated Vulnerability_BOMRef Vulnerability_ID 
  Vulnerability_Source Vulnerability_References Vulnerability_Ratings Vulnerability_CWEs Vulnerability_Description Vulnerability_Detail 
  Vulnerability_Recommendation Vulnerability_Workaround Vulnerability_ProofOfConcept Vulnerability_Advisories Vulnerability_Created 
  Vulnerability_Published Vulnerability_Updated Vulnerability_Rejected Vulnerability_Credits Vulnerability_Tools Vulnerability_Analysis 
  Vulnerability_Affects Vulnerability_Properties ResourceReferenceChoice_Ref ResourceReferenceChoice_ExternalReference Event_UID 
  Event_Description Event_TimeReceived Event_Data Event_Source Event_Target Event_Properties TaskTriggerCondition_Description 
  TaskTriggerCondition_Expression TaskTriggerCondition_Properties Parameter_t_Name Parameter_t_Value Parameter_t_DataType TaskInput_Resource 
  TaskInput_Parameters TaskInput_EnvironmentVars TaskInput_Data TaskInput_Source TaskInput_Target TaskInput_Properties TaskOutput_Resource 
  TaskOutput_Parameters TaskOutput_EnvironmentVars TaskOutput_Data TaskOutput_Type TaskOutput_Source TaskOutput_Target TaskOutput_Properties 
  TaskTrigger_BOMRef TaskTrigger_UID TaskTrigger_Name TaskTrigger_Description TaskTrigger_ResourceReferences TaskTrigger_Type 
  TaskTrigger_Event TaskTrigger_Conditions TaskTrigger_TimeActivated TaskTrigger_Inputs TaskTrigger_Outputs TaskTrigger_Properties 
  TaskCommand_Executed TaskCommand_Properties TaskStep_Name TaskStep_Description TaskStep_Commands TaskStep_Properties Volume_UID 
  Volume_Name Volume_Mode Volume_Path Volume_SizeAllocated Volume_Persistent Volume_Remote Volume_Properties TaskWorkspace_BOMRef 
  TaskWorkspace_UID TaskWorkspace_Name TaskWorkspace_Aliases TaskWorkspace_Description TaskWorkspace_ResourceReferences 
  TaskWorkspace_AccessMode TaskWorkspace_MountPath TaskWorkspace_ManagedDataType TaskWorkspace_VolumeRequest TaskWorkspace_Volume 
  TaskWorkspace_Properties Task_BOMRef Task_UID Task_Name Task_Description Task_Properties Task_ResourceReferences Task_TaskTypes 
  Task_Trigger Task_Steps Task_Inputs Task_Outputs Task_TimeStart Task_TimeEnd Task_Workspaces Task_RuntimeTopology Workflow_BOMRef 
  Workflow_UID Workflow_Name Workflow_Description Workflow_ResourceReferences Workflow_Tasks Workflow_TaskDependencies Workflow_TaskTypes 
  Workflow_Trigger Workflow_Steps Workflow_Inputs Workflow_Outputs Workflow_TimeStart Workflow_TimeEnd Workflow_Workspaces 
  Workflow_RuntimeTopology Workflow_Properties Formula_BOMRef Formula_Components Formula_Services Formula_Workflows Formula_Properties 
  Claim_BOMRef Claim_Target Claim_Predicate Claim_MitigationStrategies Claim_Reasoning Claim_Evidence Claim_CounterEvidence 
  Claim_ExternalReferences Claim_Signature EvidenceDataContents_Attachment EvidenceDataContents_URL EvidenceData_Name EvidenceData_Contents 
  EvidenceData_Classification EvidenceData_SensitiveData EvidenceData_Governance DeclarationEvidence_BOMRef DeclarationEvidence_PropertyName 
  DeclarationEvidence_Description DeclarationEvidence_Data DeclarationEvidence_Created DeclarationEvidence_Expires 
  DeclarationEvidence_Author DeclarationEvidence_Reviewer DeclarationEvidence_Signature Targets_Organizations Targets_Components 
  Targets_Services Signatory_Name Signatory_Role Signatory_Signature Signatory_Organization Signatory_ExternalReference 
  Affirmation_Statement Affirmation_Signatories Affirmation_Signature Declarations_Assessors Declarations_Attestations Declarations_Claims 
  Declarations_Evidence Declarations_Targets Declarations_Affirmation Declarations_Signature StandardRequirement_BOMRef 
  StandardRequirement_Identifier StandardRequirement_Title StandardRequirement_Text StandardRequirement_Descriptions 
  StandardRequirement_OpenCRE StandardRequirement_Parent StandardRequirement_Properties StandardRequirement_ExternalReferences 
  StandardLevel_BOMRef StandardLevel_Identifier StandardLevel_Title StandardLevel_Description StandardLevel_Requirements 
  StandardDefinition_BOMRef StandardDefinition_Name StandardDefinition_Version StandardDefinition_Description StandardDefinition_Owner 
  StandardDefinition_Requirements StandardDefinition_Levels StandardDefinition_ExternalReferences StandardDefinition_Signature 
  PriorityApplication_ApplicationNumber PriorityApplication_Jurisdiction PriorityApplication_FilingDate Patent_BOMRef Patent_PatentNumber 
  Patent_ApplicationNumber Patent_Jurisdiction Patent_PriorityApplication Patent_PublicationNumber Patent_Title Patent_Abstract 
  Patent_FilingDate Patent_GrantDate Patent_PatentExpirationDate Patent_PatentLegalStatus Patent_PatentAssignee Patent_ExternalReferences 
  PatentFamily_BOMRef PatentFamily_FamilyID PatentFamily_PriorityApplication PatentFamily_Members PatentFamily_ExternalReferences 
  PatentChoice_Patent PatentChoice_PatentFamily Definitions_Standards Definitions_Patents Citation_BOMRef Citation_Pointers 
  Citation_Expressions Citation_Timestamp Citation_AttributedTo Citation_Process Citation_Note Citation_Signature BOM_XMLName BOM_XMLNS 
  BOM_JSONSchema BOM_BOMFormat BOM_SpecVersion BOM_SerialNumber BOM_Version BOM_Metadata BOM_Components BOM_Services BOM_ExternalReferences 
  BOM_Dependencies BOM_Compositions BOM_Properties BOM_Vulnerabilities BOM_Annotations BOM_Formulation BOM_Declarations BOM_Definitions 
  BOM_Citations BOM_Signature ] in H.
