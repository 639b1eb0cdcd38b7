(** GENERATED by tools/gen_consts.py: the string constants of /repo/cyclonedx.go. *)
From Verif Require Import Base Types.
Local Open Scope string_scope.

Definition BOMFormat_const : string := "CycloneDX". (* /repo/cyclonedx.go:30 *)
Definition ComponentTypeApplication : ComponentType := "application". (* /repo/cyclonedx.go:216 *)
Definition ComponentTypeContainer : ComponentType := "container". (* /repo/cyclonedx.go:217 *)
Definition ComponentTypeCryptographicAsset : ComponentType := "cryptographic-asset". (* /repo/cyclonedx.go:218 *)
Definition ComponentTypeData : ComponentType := "data". (* /repo/cyclonedx.go:219 *)
Definition ComponentTypeDevice : ComponentType := "device". (* /repo/cyclonedx.go:220 *)
Definition ComponentTypeDeviceDriver : ComponentType := "device-driver". (* /repo/cyclonedx.go:221 *)
Definition ComponentTypeFile : ComponentType := "file". (* /repo/cyclonedx.go:222 *)
Definition ComponentTypeFirmware : ComponentType := "firmware". (* /repo/cyclonedx.go:223 *)
Definition ComponentTypeFramework : ComponentType := "framework". (* /repo/cyclonedx.go:224 *)
Definition ComponentTypeLibrary : ComponentType := "library". (* /repo/cyclonedx.go:225 *)
Definition ComponentTypeMachineLearningModel : ComponentType := "machine-learning-model". (* /repo/cyclonedx.go:226 *)
Definition ComponentTypeOS : ComponentType := "operating-system". (* /repo/cyclonedx.go:227 *)
Definition ComponentTypePlatform : ComponentType := "platform". (* /repo/cyclonedx.go:228 *)
Definition ComponentDataTypeConfiguration : ComponentDataType := "configuration". (* /repo/cyclonedx.go:314 *)
Definition ComponentDataTypeDataset : ComponentDataType := "dataset". (* /repo/cyclonedx.go:315 *)
Definition ComponentDataTypeDefinition : ComponentDataType := "definition". (* /repo/cyclonedx.go:316 *)
Definition ComponentDataTypeOther : ComponentDataType := "other". (* /repo/cyclonedx.go:317 *)
Definition ComponentDataTypeSourceCode : ComponentDataType := "source-code". (* /repo/cyclonedx.go:318 *)
Definition CompositionAggregateComplete : CompositionAggregate := "complete". (* /repo/cyclonedx.go:333 *)
Definition CompositionAggregateIncomplete : CompositionAggregate := "incomplete". (* /repo/cyclonedx.go:334 *)
Definition CompositionAggregateIncompleteFirstPartyOnly : CompositionAggregate := "incomplete_first_party_only". (* /repo/cyclonedx.go:335 *)
Definition CompositionAggregateIncompleteFirstPartyOpenSourceOnly : CompositionAggregate := "incomplete_first_party_opensource_only". (* /repo/cyclonedx.go:336 *)
Definition CompositionAggregateIncompleteFirstPartyProprietaryOnly : CompositionAggregate := "incomplete_first_party_proprietary_only". (* /repo/cyclonedx.go:337 *)
Definition CompositionAggregateIncompleteThirdPartyOnly : CompositionAggregate := "incomplete_third_party_only". (* /repo/cyclonedx.go:338 *)
Definition CompositionAggregateIncompleteThirdPartyOpenSourceOnly : CompositionAggregate := "incomplete_third_party_opensource_only". (* /repo/cyclonedx.go:339 *)
Definition CompositionAggregateIncompleteThirdPartyProprietaryOnly : CompositionAggregate := "incomplete_third_party_proprietary_only". (* /repo/cyclonedx.go:340 *)
Definition CompositionAggregateNotSpecified : CompositionAggregate := "not_specified". (* /repo/cyclonedx.go:341 *)
Definition CompositionAggregateUnknown : CompositionAggregate := "unknown". (* /repo/cyclonedx.go:342 *)
Definition CryptoAlgorithmModeCBC : CryptoAlgorithmMode := "cbc". (* /repo/cyclonedx.go:357 *)
Definition CryptoAlgorithmModeECB : CryptoAlgorithmMode := "ecb". (* /repo/cyclonedx.go:358 *)
Definition CryptoAlgorithmModeCCM : CryptoAlgorithmMode := "ccm". (* /repo/cyclonedx.go:359 *)
Definition CryptoAlgorithmModeGCM : CryptoAlgorithmMode := "gcm". (* /repo/cyclonedx.go:360 *)
Definition CryptoAlgorithmModeCFB : CryptoAlgorithmMode := "cfb". (* /repo/cyclonedx.go:361 *)
Definition CryptoAlgorithmModeOFB : CryptoAlgorithmMode := "ofb". (* /repo/cyclonedx.go:362 *)
Definition CryptoAlgorithmModeCTR : CryptoAlgorithmMode := "ctr". (* /repo/cyclonedx.go:363 *)
Definition CryptoAlgorithmModeOther : CryptoAlgorithmMode := "other". (* /repo/cyclonedx.go:364 *)
Definition CryptoAlgorithmModeUnknown : CryptoAlgorithmMode := "unknown". (* /repo/cyclonedx.go:365 *)
Definition CryptoAssetTypeAlgorithm : CryptoAssetType := "algorithm". (* /repo/cyclonedx.go:387 *)
Definition CryptoAssetTypeCertificate : CryptoAssetType := "certificate". (* /repo/cyclonedx.go:388 *)
Definition CryptoAssetTypeProtocol : CryptoAssetType := "protocol". (* /repo/cyclonedx.go:389 *)
Definition CryptoAssetTypeRelatedCryptoMaterial : CryptoAssetType := "related-crypto-material". (* /repo/cyclonedx.go:390 *)
Definition CryptoCertificationLevelNone : CryptoCertificationLevel := "none". (* /repo/cyclonedx.go:396 *)
Definition CryptoCertificationLevelFIPS140_1_L1 : CryptoCertificationLevel := "fips140-1-l1". (* /repo/cyclonedx.go:397 *)
Definition CryptoCertificationLevelFIPS140_1_L2 : CryptoCertificationLevel := "fips140-1-l2". (* /repo/cyclonedx.go:398 *)
Definition CryptoCertificationLevelFIPS140_1_L3 : CryptoCertificationLevel := "fips140-1-l3". (* /repo/cyclonedx.go:399 *)
Definition CryptoCertificationLevelFIPS140_1_L4 : CryptoCertificationLevel := "fips140-1-l4". (* /repo/cyclonedx.go:400 *)
Definition CryptoCertificationLevelFIPS140_2_L1 : CryptoCertificationLevel := "fips140-2-l1". (* /repo/cyclonedx.go:401 *)
Definition CryptoCertificationLevelFIPS140_2_L2 : CryptoCertificationLevel := "fips140-2-l2". (* /repo/cyclonedx.go:402 *)
Definition CryptoCertificationLevelFIPS140_2_L3 : CryptoCertificationLevel := "fips140-2-l3". (* /repo/cyclonedx.go:403 *)
Definition CryptoCertificationLevelFIPS140_2_L4 : CryptoCertificationLevel := "fips140-2-l4". (* /repo/cyclonedx.go:404 *)
Definition CryptoCertificationLevelFIPS140_3_L1 : CryptoCertificationLevel := "fips140-3-l1". (* /repo/cyclonedx.go:405 *)
Definition CryptoCertificationLevelFIPS140_3_L2 : CryptoCertificationLevel := "fips140-3-l2". (* /repo/cyclonedx.go:406 *)
Definition CryptoCertificationLevelFIPS140_3_L3 : CryptoCertificationLevel := "fips140-3-l3". (* /repo/cyclonedx.go:407 *)
Definition CryptoCertificationLevelFIPS140_3_L4 : CryptoCertificationLevel := "fips140-3-l4". (* /repo/cyclonedx.go:408 *)
Definition CryptoCertificationLevelCCEAL1 : CryptoCertificationLevel := "cc-eal1". (* /repo/cyclonedx.go:409 *)
Definition CryptoCertificationLevelCCEAL1Plus : CryptoCertificationLevel := "cc-eal1+". (* /repo/cyclonedx.go:410 *)
Definition CryptoCertificationLevelCCEAL2 : CryptoCertificationLevel := "cc-eal2". (* /repo/cyclonedx.go:411 *)
Definition CryptoCertificationLevelCCEAL2Plus : CryptoCertificationLevel := "cc-eal2+". (* /repo/cyclonedx.go:412 *)
Definition CryptoCertificationLevelCCEAL3 : CryptoCertificationLevel := "cc-eal3". (* /repo/cyclonedx.go:413 *)
Definition CryptoCertificationLevelCCEAL3Plus : CryptoCertificationLevel := "cc-eal3+". (* /repo/cyclonedx.go:414 *)
Definition CryptoCertificationLevelCCEAL4 : CryptoCertificationLevel := "cc-eal4". (* /repo/cyclonedx.go:415 *)
Definition CryptoCertificationLevelCCEAL4Plus : CryptoCertificationLevel := "cc-eal4+". (* /repo/cyclonedx.go:416 *)
Definition CryptoCertificationLevelCCEAL5 : CryptoCertificationLevel := "cc-eal5". (* /repo/cyclonedx.go:417 *)
Definition CryptoCertificationLevelCCEAL5Plus : CryptoCertificationLevel := "cc-eal5+". (* /repo/cyclonedx.go:418 *)
Definition CryptoCertificationLevelCCEAL6 : CryptoCertificationLevel := "cc-eal6". (* /repo/cyclonedx.go:419 *)
Definition CryptoCertificationLevelCCEAL6Plus : CryptoCertificationLevel := "cc-eal6+". (* /repo/cyclonedx.go:420 *)
Definition CryptoCertificationLevelCCEAL7 : CryptoCertificationLevel := "cc-eal7". (* /repo/cyclonedx.go:421 *)
Definition CryptoCertificationLevelCCEAL7Plus : CryptoCertificationLevel := "cc-eal7+". (* /repo/cyclonedx.go:422 *)
Definition CryptoCertificationLevelOther : CryptoCertificationLevel := "other". (* /repo/cyclonedx.go:423 *)
Definition CryptoCertificationLevelUnknown : CryptoCertificationLevel := "unknown". (* /repo/cyclonedx.go:424 *)
Definition CryptoExecutionEnvironmentSoftwarePlainRAM : CryptoExecutionEnvironment := "software-plain-ram". (* /repo/cyclonedx.go:430 *)
Definition CryptoExecutionEnvironmentSoftwareEncryptedRAM : CryptoExecutionEnvironment := "software-encrypted-ram". (* /repo/cyclonedx.go:431 *)
Definition CryptoExecutionEnvironmentSoftwareTEE : CryptoExecutionEnvironment := "software-tee". (* /repo/cyclonedx.go:432 *)
Definition CryptoExecutionEnvironmentHardware : CryptoExecutionEnvironment := "hardware". (* /repo/cyclonedx.go:433 *)
Definition CryptoExecutionEnvironmentOther : CryptoExecutionEnvironment := "other". (* /repo/cyclonedx.go:434 *)
Definition CryptoExecutionEnvironmentUnknown : CryptoExecutionEnvironment := "unknown". (* /repo/cyclonedx.go:435 *)
Definition CryptoFunctionGenerate : CryptoFunction := "generate". (* /repo/cyclonedx.go:441 *)
Definition CryptoFunctionKeygen : CryptoFunction := "keygen". (* /repo/cyclonedx.go:442 *)
Definition CryptoFunctionEncrypt : CryptoFunction := "encrypt". (* /repo/cyclonedx.go:443 *)
Definition CryptoFunctionDecrypt : CryptoFunction := "decrypt". (* /repo/cyclonedx.go:444 *)
Definition CryptoFunctionDigest : CryptoFunction := "digest". (* /repo/cyclonedx.go:445 *)
Definition CryptoFunctionTag : CryptoFunction := "tag". (* /repo/cyclonedx.go:446 *)
Definition CryptoFunctionKeyderive : CryptoFunction := "keyderive". (* /repo/cyclonedx.go:447 *)
Definition CryptoFunctionSign : CryptoFunction := "sign". (* /repo/cyclonedx.go:448 *)
Definition CryptoFunctionVerify : CryptoFunction := "verify". (* /repo/cyclonedx.go:449 *)
Definition CryptoFunctionEncapsulate : CryptoFunction := "encapsulate". (* /repo/cyclonedx.go:450 *)
Definition CryptoFunctionDecapsulate : CryptoFunction := "decapsulate". (* /repo/cyclonedx.go:451 *)
Definition CryptoFunctionOther : CryptoFunction := "other". (* /repo/cyclonedx.go:452 *)
Definition CryptoFunctionUnknown : CryptoFunction := "unknown". (* /repo/cyclonedx.go:453 *)
Definition CryptoKeyStatePreActivation : CryptoKeyState := "pre-activation". (* /repo/cyclonedx.go:459 *)
Definition CryptoKeyStateActive : CryptoKeyState := "active". (* /repo/cyclonedx.go:460 *)
Definition CryptoKeyStateSuspended : CryptoKeyState := "suspended". (* /repo/cyclonedx.go:461 *)
Definition CryptoKeyStateDeactivated : CryptoKeyState := "deactivated". (* /repo/cyclonedx.go:462 *)
Definition CryptoKeyStateCompromised : CryptoKeyState := "compromised". (* /repo/cyclonedx.go:463 *)
Definition CryptoKeyStateDestroyed : CryptoKeyState := "destroyed". (* /repo/cyclonedx.go:464 *)
Definition CryptoPaddingPKCS5 : CryptoPadding := "pkcs5". (* /repo/cyclonedx.go:470 *)
Definition CryptoPaddingPKCS7 : CryptoPadding := "pkcs7". (* /repo/cyclonedx.go:471 *)
Definition CryptoPaddingPKCS1v15 : CryptoPadding := "pkcs1v15". (* /repo/cyclonedx.go:472 *)
Definition CryptoPaddingOAEP : CryptoPadding := "oaep". (* /repo/cyclonedx.go:473 *)
Definition CryptoPaddingRaw : CryptoPadding := "raw". (* /repo/cyclonedx.go:474 *)
Definition CryptoPaddingOther : CryptoPadding := "other". (* /repo/cyclonedx.go:475 *)
Definition CryptoPaddingUnknown : CryptoPadding := "unknown". (* /repo/cyclonedx.go:476 *)
Definition CryptoPrimitiveDRBG : CryptoPrimitive := "drbg". (* /repo/cyclonedx.go:482 *)
Definition CryptoPrimitiveMAC : CryptoPrimitive := "mac". (* /repo/cyclonedx.go:483 *)
Definition CryptoPrimitiveBlockCipher : CryptoPrimitive := "block-cipher". (* /repo/cyclonedx.go:484 *)
Definition CryptoPrimitiveStreamCipher : CryptoPrimitive := "stream-cipher". (* /repo/cyclonedx.go:485 *)
Definition CryptoPrimitiveSignature : CryptoPrimitive := "signature". (* /repo/cyclonedx.go:486 *)
Definition CryptoPrimitiveHash : CryptoPrimitive := "hash". (* /repo/cyclonedx.go:487 *)
Definition CryptoPrimitivePKE : CryptoPrimitive := "pke". (* /repo/cyclonedx.go:488 *)
Definition CryptoPrimitiveXOF : CryptoPrimitive := "xof". (* /repo/cyclonedx.go:489 *)
Definition CryptoPrimitiveKDF : CryptoPrimitive := "kdf". (* /repo/cyclonedx.go:490 *)
Definition CryptoPrimitiveKeyAgree : CryptoPrimitive := "key-agree". (* /repo/cyclonedx.go:491 *)
Definition CryptoPrimitiveKEM : CryptoPrimitive := "kem". (* /repo/cyclonedx.go:492 *)
Definition CryptoPrimitiveAE : CryptoPrimitive := "ae". (* /repo/cyclonedx.go:493 *)
Definition CryptoPrimitiveCombiner : CryptoPrimitive := "combiner". (* /repo/cyclonedx.go:494 *)
Definition CryptoPrimitiveKeyWrap : CryptoPrimitive := "key-wrap". (* /repo/cyclonedx.go:495 *)
Definition CryptoPrimitiveOther : CryptoPrimitive := "other". (* /repo/cyclonedx.go:496 *)
Definition CryptoPrimitiveUnknown : CryptoPrimitive := "unknown". (* /repo/cyclonedx.go:497 *)
Definition CryptoProtocolTypeTLS : CryptoProtocolType := "tls". (* /repo/cyclonedx.go:521 *)
Definition CryptoProtocolTypeSSH : CryptoProtocolType := "ssh". (* /repo/cyclonedx.go:522 *)
Definition CryptoProtocolTypeIPSec : CryptoProtocolType := "ipsec". (* /repo/cyclonedx.go:523 *)
Definition CryptoProtocolTypeIKE : CryptoProtocolType := "ike". (* /repo/cyclonedx.go:524 *)
Definition CryptoProtocolTypeSSTP : CryptoProtocolType := "sstp". (* /repo/cyclonedx.go:525 *)
Definition CryptoProtocolTypeWPA : CryptoProtocolType := "wpa". (* /repo/cyclonedx.go:526 *)
Definition CryptoProtocolTypeDTLS : CryptoProtocolType := "dtls". (* /repo/cyclonedx.go:527 *)
Definition CryptoProtocolTypeQUIC : CryptoProtocolType := "quic". (* /repo/cyclonedx.go:528 *)
Definition CryptoProtocolTypeEAPAKA : CryptoProtocolType := "eap-aka". (* /repo/cyclonedx.go:529 *)
Definition CryptoProtocolTypeEAPAKAPrime : CryptoProtocolType := "eap-aka-prime". (* /repo/cyclonedx.go:530 *)
Definition CryptoProtocolTypePRINS : CryptoProtocolType := "prins". (* /repo/cyclonedx.go:531 *)
Definition CryptoProtocolType5GAKA : CryptoProtocolType := "5g-aka". (* /repo/cyclonedx.go:532 *)
Definition CryptoProtocolTypeOther : CryptoProtocolType := "other". (* /repo/cyclonedx.go:533 *)
Definition CryptoProtocolTypeUnknown : CryptoProtocolType := "unknown". (* /repo/cyclonedx.go:534 *)
Definition DataFlowBidirectional : DataFlow := "bi-directional". (* /repo/cyclonedx.go:564 *)
Definition DataFlowInbound : DataFlow := "inbound". (* /repo/cyclonedx.go:565 *)
Definition DataFlowOutbound : DataFlow := "outbound". (* /repo/cyclonedx.go:566 *)
Definition DataFlowUnknown : DataFlow := "unknown". (* /repo/cyclonedx.go:567 *)
Definition EvidenceIdentityFieldTypeCPE : EvidenceIdentityFieldType := "cpe". (* /repo/cyclonedx.go:699 *)
Definition EvidenceIdentityFieldTypeGroup : EvidenceIdentityFieldType := "group". (* /repo/cyclonedx.go:700 *)
Definition EvidenceIdentityFieldTypeHash : EvidenceIdentityFieldType := "hash". (* /repo/cyclonedx.go:701 *)
Definition EvidenceIdentityFieldTypeName : EvidenceIdentityFieldType := "name". (* /repo/cyclonedx.go:702 *)
Definition EvidenceIdentityFieldTypePURL : EvidenceIdentityFieldType := "purl". (* /repo/cyclonedx.go:703 *)
Definition EvidenceIdentityFieldTypeOmniborID : EvidenceIdentityFieldType := "omniborId". (* /repo/cyclonedx.go:704 *)
Definition EvidenceIdentityFieldTypeSWHID : EvidenceIdentityFieldType := "swhid". (* /repo/cyclonedx.go:705 *)
Definition EvidenceIdentityFieldTypeSWID : EvidenceIdentityFieldType := "swid". (* /repo/cyclonedx.go:706 *)
Definition EvidenceIdentityFieldTypeVersion : EvidenceIdentityFieldType := "version". (* /repo/cyclonedx.go:707 *)
Definition EvidenceIdentityTechniqueASTFingerprint : EvidenceIdentityTechnique := "ast-fingerprint". (* /repo/cyclonedx.go:719 *)
Definition EvidenceIdentityTechniqueAttestation : EvidenceIdentityTechnique := "attestation". (* /repo/cyclonedx.go:720 *)
Definition EvidenceIdentityTechniqueBinaryAnalysis : EvidenceIdentityTechnique := "binary-analysis". (* /repo/cyclonedx.go:721 *)
Definition EvidenceIdentityTechniqueDynamicAnalysis : EvidenceIdentityTechnique := "dynamic-analysis". (* /repo/cyclonedx.go:722 *)
Definition EvidenceIdentityTechniqueFilename : EvidenceIdentityTechnique := "filename". (* /repo/cyclonedx.go:723 *)
Definition EvidenceIdentityTechniqueHashComparison : EvidenceIdentityTechnique := "hash-comparison". (* /repo/cyclonedx.go:724 *)
Definition EvidenceIdentityTechniqueInstrumentation : EvidenceIdentityTechnique := "instrumentation". (* /repo/cyclonedx.go:725 *)
Definition EvidenceIdentityTechniqueManifestAnalysis : EvidenceIdentityTechnique := "manifest-analysis". (* /repo/cyclonedx.go:726 *)
Definition EvidenceIdentityTechniqueOther : EvidenceIdentityTechnique := "other". (* /repo/cyclonedx.go:727 *)
Definition EvidenceIdentityTechniqueSourceCodeAnalysis : EvidenceIdentityTechnique := "source-code-analysis". (* /repo/cyclonedx.go:728 *)
Definition ERTypeAdversaryModel : ExternalReferenceType := "adversary-model". (* /repo/cyclonedx.go:751 *)
Definition ERTypeAdvisories : ExternalReferenceType := "advisories". (* /repo/cyclonedx.go:752 *)
Definition ERTypeAttestation : ExternalReferenceType := "attestation". (* /repo/cyclonedx.go:753 *)
Definition ERTypeBOM : ExternalReferenceType := "bom". (* /repo/cyclonedx.go:754 *)
Definition ERTypeBuildMeta : ExternalReferenceType := "build-meta". (* /repo/cyclonedx.go:755 *)
Definition ERTypeBuildSystem : ExternalReferenceType := "build-system". (* /repo/cyclonedx.go:756 *)
Definition ERTypeCertificationReport : ExternalReferenceType := "certification-report". (* /repo/cyclonedx.go:757 *)
Definition ERTypeChat : ExternalReferenceType := "chat". (* /repo/cyclonedx.go:758 *)
Definition ERTypeConfiguration : ExternalReferenceType := "configuration". (* /repo/cyclonedx.go:759 *)
Definition ERTypeCodifiedInfrastructure : ExternalReferenceType := "codified-infrastructure". (* /repo/cyclonedx.go:760 *)
Definition ERTypeComponentAnalysisReport : ExternalReferenceType := "component-analysis-report". (* /repo/cyclonedx.go:761 *)
Definition ERTypeDistribution : ExternalReferenceType := "distribution". (* /repo/cyclonedx.go:762 *)
Definition ERTypeDistributionIntake : ExternalReferenceType := "distribution-intake". (* /repo/cyclonedx.go:763 *)
Definition ERTypeDocumentation : ExternalReferenceType := "documentation". (* /repo/cyclonedx.go:764 *)
Definition ERTypeDynamicAnalysisReport : ExternalReferenceType := "dynamic-analysis-report". (* /repo/cyclonedx.go:765 *)
Definition ERTypeDigitalSignature : ExternalReferenceType := "digital-signature". (* /repo/cyclonedx.go:766 *)
Definition ERTypeElectronicSignature : ExternalReferenceType := "electronic-signature". (* /repo/cyclonedx.go:767 *)
Definition ERTypeEvidence : ExternalReferenceType := "evidence". (* /repo/cyclonedx.go:768 *)
Definition ERTypeExploitabilityStatement : ExternalReferenceType := "exploitability-statement". (* /repo/cyclonedx.go:769 *)
Definition ERTypeFormulation : ExternalReferenceType := "formulation". (* /repo/cyclonedx.go:770 *)
Definition ERTypeIssueTracker : ExternalReferenceType := "issue-tracker". (* /repo/cyclonedx.go:771 *)
Definition ERTypeLicense : ExternalReferenceType := "license". (* /repo/cyclonedx.go:772 *)
Definition ERTypeLog : ExternalReferenceType := "log". (* /repo/cyclonedx.go:773 *)
Definition ERTypeMailingList : ExternalReferenceType := "mailing-list". (* /repo/cyclonedx.go:774 *)
Definition ERTypeMaturityReport : ExternalReferenceType := "maturity-report". (* /repo/cyclonedx.go:775 *)
Definition ERTypeModelCard : ExternalReferenceType := "model-card". (* /repo/cyclonedx.go:776 *)
Definition ERTypeOther : ExternalReferenceType := "other". (* /repo/cyclonedx.go:777 *)
Definition ERTypePentestReport : ExternalReferenceType := "pentest-report". (* /repo/cyclonedx.go:778 *)
Definition ERTypePOAM : ExternalReferenceType := "poam". (* /repo/cyclonedx.go:779 *)
Definition ERTypeQualityMetrics : ExternalReferenceType := "quality-metrics". (* /repo/cyclonedx.go:780 *)
Definition ERTypeReleaseNotes : ExternalReferenceType := "release-notes". (* /repo/cyclonedx.go:781 *)
Definition ERTypeRiskAssessment : ExternalReferenceType := "risk-assessment". (* /repo/cyclonedx.go:782 *)
Definition ERTypeRFC9116 : ExternalReferenceType := "rfc-9116". (* /repo/cyclonedx.go:783 *)
Definition ERTypeRuntimeAnalysisReport : ExternalReferenceType := "runtime-analysis-report". (* /repo/cyclonedx.go:784 *)
Definition ERTypeSecurityContact : ExternalReferenceType := "security-contact". (* /repo/cyclonedx.go:785 *)
Definition ERTypeSocial : ExternalReferenceType := "social". (* /repo/cyclonedx.go:786 *)
Definition ERTypeSourceDistribution : ExternalReferenceType := "source-distribution". (* /repo/cyclonedx.go:787 *)
Definition ERTypeStaticAnalysisReport : ExternalReferenceType := "static-analysis-report". (* /repo/cyclonedx.go:788 *)
Definition ERTypeSupport : ExternalReferenceType := "support". (* /repo/cyclonedx.go:789 *)
Definition ERTypeThreatModel : ExternalReferenceType := "threat-model". (* /repo/cyclonedx.go:790 *)
Definition ERTypeVCS : ExternalReferenceType := "vcs". (* /repo/cyclonedx.go:791 *)
Definition ERTypeVulnerabilityAssertion : ExternalReferenceType := "vulnerability-assertion". (* /repo/cyclonedx.go:792 *)
Definition ERTypeWebsite : ExternalReferenceType := "website". (* /repo/cyclonedx.go:793 *)
Definition ERTypePatent : ExternalReferenceType := "patent". (* /repo/cyclonedx.go:794 *)
Definition ERTypePatentFamily : ExternalReferenceType := "patent-family". (* /repo/cyclonedx.go:795 *)
Definition ERTypePatentAssertion : ExternalReferenceType := "patent-assertion". (* /repo/cyclonedx.go:796 *)
Definition ERTypeCitation : ExternalReferenceType := "citation". (* /repo/cyclonedx.go:797 *)
Definition HashAlgoMD5 : HashAlgorithm := "MD5". (* /repo/cyclonedx.go:816 *)
Definition HashAlgoSHA1 : HashAlgorithm := "SHA-1". (* /repo/cyclonedx.go:817 *)
Definition HashAlgoSHA256 : HashAlgorithm := "SHA-256". (* /repo/cyclonedx.go:818 *)
Definition HashAlgoSHA384 : HashAlgorithm := "SHA-384". (* /repo/cyclonedx.go:819 *)
Definition HashAlgoSHA512 : HashAlgorithm := "SHA-512". (* /repo/cyclonedx.go:820 *)
Definition HashAlgoSHA3_256 : HashAlgorithm := "SHA3-256". (* /repo/cyclonedx.go:821 *)
Definition HashAlgoSHA3_384 : HashAlgorithm := "SHA3-384". (* /repo/cyclonedx.go:822 *)
Definition HashAlgoSHA3_512 : HashAlgorithm := "SHA3-512". (* /repo/cyclonedx.go:823 *)
Definition HashAlgoBlake2b_256 : HashAlgorithm := "BLAKE2b-256". (* /repo/cyclonedx.go:824 *)
Definition HashAlgoBlake2b_384 : HashAlgorithm := "BLAKE2b-384". (* /repo/cyclonedx.go:825 *)
Definition HashAlgoBlake2b_512 : HashAlgorithm := "BLAKE2b-512". (* /repo/cyclonedx.go:826 *)
Definition HashAlgoBlake3 : HashAlgorithm := "BLAKE3". (* /repo/cyclonedx.go:827 *)
Definition HashAlgoStreebog256 : HashAlgorithm := "Streebog-256". (* /repo/cyclonedx.go:828 *)
Definition HashAlgoStreebog512 : HashAlgorithm := "Streebog-512". (* /repo/cyclonedx.go:829 *)
Definition IAJCodeNotPresent : ImpactAnalysisJustification := "code_not_present". (* /repo/cyclonedx.go:841 *)
Definition IAJCodeNotReachable : ImpactAnalysisJustification := "code_not_reachable". (* /repo/cyclonedx.go:842 *)
Definition IAJRequiresConfiguration : ImpactAnalysisJustification := "requires_configuration". (* /repo/cyclonedx.go:843 *)
Definition IAJRequiresDependency : ImpactAnalysisJustification := "requires_dependency". (* /repo/cyclonedx.go:844 *)
Definition IAJRequiresEnvironment : ImpactAnalysisJustification := "requires_environment". (* /repo/cyclonedx.go:845 *)
Definition IAJProtectedByCompiler : ImpactAnalysisJustification := "protected_by_compiler". (* /repo/cyclonedx.go:846 *)
Definition IAJProtectedAtRuntime : ImpactAnalysisJustification := "protected_at_runtime". (* /repo/cyclonedx.go:847 *)
Definition IAJProtectedAtPerimeter : ImpactAnalysisJustification := "protected_at_perimeter". (* /repo/cyclonedx.go:848 *)
Definition IAJProtectedByMitigatingControl : ImpactAnalysisJustification := "protected_by_mitigating_control". (* /repo/cyclonedx.go:849 *)
Definition IARCanNotFix : ImpactAnalysisResponse := "can_not_fix". (* /repo/cyclonedx.go:855 *)
Definition IARWillNotFix : ImpactAnalysisResponse := "will_not_fix". (* /repo/cyclonedx.go:856 *)
Definition IARUpdate : ImpactAnalysisResponse := "update". (* /repo/cyclonedx.go:857 *)
Definition IARRollback : ImpactAnalysisResponse := "rollback". (* /repo/cyclonedx.go:858 *)
Definition IARWorkaroundAvailable : ImpactAnalysisResponse := "workaround_available". (* /repo/cyclonedx.go:859 *)
Definition IASResolved : ImpactAnalysisState := "resolved". (* /repo/cyclonedx.go:865 *)
Definition IASResolvedWithPedigree : ImpactAnalysisState := "resolved_with_pedigree". (* /repo/cyclonedx.go:866 *)
Definition IASExploitable : ImpactAnalysisState := "exploitable". (* /repo/cyclonedx.go:867 *)
Definition IASInTriage : ImpactAnalysisState := "in_triage". (* /repo/cyclonedx.go:868 *)
Definition IASFalsePositive : ImpactAnalysisState := "false_positive". (* /repo/cyclonedx.go:869 *)
Definition IASNotAffected : ImpactAnalysisState := "not_affected". (* /repo/cyclonedx.go:870 *)
Definition ImplementationPlatformGeneric : ImplementationPlatform := "generic". (* /repo/cyclonedx.go:876 *)
Definition ImplementationPlatformX86_32 : ImplementationPlatform := "x86_32". (* /repo/cyclonedx.go:877 *)
Definition ImplementationPlatformX86_64 : ImplementationPlatform := "x86_64". (* /repo/cyclonedx.go:878 *)
Definition ImplementationPlatformARMv7A : ImplementationPlatform := "armv7-a". (* /repo/cyclonedx.go:879 *)
Definition ImplementationPlatformARMv7M : ImplementationPlatform := "armv7-m". (* /repo/cyclonedx.go:880 *)
Definition ImplementationPlatformARMv8A : ImplementationPlatform := "armv8-a". (* /repo/cyclonedx.go:881 *)
Definition ImplementationPlatformARMv8M : ImplementationPlatform := "armv8-m". (* /repo/cyclonedx.go:882 *)
Definition ImplementationPlatformARMv9A : ImplementationPlatform := "armv9-a". (* /repo/cyclonedx.go:883 *)
Definition ImplementationPlatformARMv9M : ImplementationPlatform := "armv9-m". (* /repo/cyclonedx.go:884 *)
Definition ImplementationPlatformS390x : ImplementationPlatform := "s390x". (* /repo/cyclonedx.go:885 *)
Definition ImplementationPlatformPPC64 : ImplementationPlatform := "ppc64". (* /repo/cyclonedx.go:886 *)
Definition ImplementationPlatformPPC64LE : ImplementationPlatform := "ppc64le". (* /repo/cyclonedx.go:887 *)
Definition ImplementationPlatformOther : ImplementationPlatform := "other". (* /repo/cyclonedx.go:888 *)
Definition ImplementationPlatformUnknown : ImplementationPlatform := "unknown". (* /repo/cyclonedx.go:889 *)
Definition IssueTypeDefect : IssueType := "defect". (* /repo/cyclonedx.go:904 *)
Definition IssueTypeEnhancement : IssueType := "enhancement". (* /repo/cyclonedx.go:905 *)
Definition IssueTypeSecurity : IssueType := "security". (* /repo/cyclonedx.go:906 *)
Definition LicenseAcknowledgementDeclared : LicenseAcknowledgement := "declared". (* /repo/cyclonedx.go:950 *)
Definition LicenseAcknowledgementConcluded : LicenseAcknowledgement := "concluded". (* /repo/cyclonedx.go:951 *)
Definition LicenseTypeAcademic : LicenseType := "academic". (* /repo/cyclonedx.go:977 *)
Definition LicenseTypeAppliance : LicenseType := "appliance". (* /repo/cyclonedx.go:978 *)
Definition LicenseTypeClientAccess : LicenseType := "client-access". (* /repo/cyclonedx.go:979 *)
Definition LicenseTypeConcurrentUser : LicenseType := "concurrent-user". (* /repo/cyclonedx.go:980 *)
Definition LicenseTypeCorePoints : LicenseType := "core-points". (* /repo/cyclonedx.go:981 *)
Definition LicenseTypeCustomMetric : LicenseType := "custom-metric". (* /repo/cyclonedx.go:982 *)
Definition LicenseTypeDevice : LicenseType := "device". (* /repo/cyclonedx.go:983 *)
Definition LicenseTypeEvaluation : LicenseType := "evaluation". (* /repo/cyclonedx.go:984 *)
Definition LicenseTypeNamedUser : LicenseType := "named-user". (* /repo/cyclonedx.go:985 *)
Definition LicenseTypeNodeLocked : LicenseType := "node-locked". (* /repo/cyclonedx.go:986 *)
Definition LicenseTypeOEM : LicenseType := "oem". (* /repo/cyclonedx.go:987 *)
Definition LicenseTypeOther : LicenseType := "other". (* /repo/cyclonedx.go:988 *)
Definition LicenseTypePerpetual : LicenseType := "perpetual". (* /repo/cyclonedx.go:989 *)
Definition LicenseTypeProcessorPoints : LicenseType := "processor-points". (* /repo/cyclonedx.go:990 *)
Definition LicenseTypeSubscription : LicenseType := "subscription". (* /repo/cyclonedx.go:991 *)
Definition LicenseTypeUser : LicenseType := "user". (* /repo/cyclonedx.go:992 *)
Definition LifecyclePhaseBuild : LifecyclePhase := "build". (* /repo/cyclonedx.go:1015 *)
Definition LifecyclePhaseDecommission : LifecyclePhase := "decommission". (* /repo/cyclonedx.go:1016 *)
Definition LifecyclePhaseDesign : LifecyclePhase := "design". (* /repo/cyclonedx.go:1017 *)
Definition LifecyclePhaseDiscovery : LifecyclePhase := "discovery". (* /repo/cyclonedx.go:1018 *)
Definition LifecyclePhaseOperations : LifecyclePhase := "operations". (* /repo/cyclonedx.go:1019 *)
Definition LifecyclePhasePostBuild : LifecyclePhase := "post-build". (* /repo/cyclonedx.go:1020 *)
Definition LifecyclePhasePreBuild : LifecyclePhase := "pre-build". (* /repo/cyclonedx.go:1021 *)
Definition MLModelEnergyConsumptionActivityDesign : MLModelEnergyConsumptionActivity := "design". (* /repo/cyclonedx.go:1120 *)
Definition MLModelEnergyConsumptionActivityDataCollection : MLModelEnergyConsumptionActivity := "data-collection". (* /repo/cyclonedx.go:1121 *)
Definition MLModelEnergyConsumptionActivityDataPreparation : MLModelEnergyConsumptionActivity := "data-preparation". (* /repo/cyclonedx.go:1122 *)
Definition MLModelEnergyConsumptionActivityTraining : MLModelEnergyConsumptionActivity := "training". (* /repo/cyclonedx.go:1123 *)
Definition MLModelEnergyConsumptionActivityFineTuning : MLModelEnergyConsumptionActivity := "fine-tuning". (* /repo/cyclonedx.go:1124 *)
Definition MLModelEnergyConsumptionActivityValidation : MLModelEnergyConsumptionActivity := "validation". (* /repo/cyclonedx.go:1125 *)
Definition MLModelEnergyConsumptionActivityDeployment : MLModelEnergyConsumptionActivity := "deployment". (* /repo/cyclonedx.go:1126 *)
Definition MLModelEnergyConsumptionActivityInference : MLModelEnergyConsumptionActivity := "inference". (* /repo/cyclonedx.go:1127 *)
Definition MLModelEnergyConsumptionActivityOther : MLModelEnergyConsumptionActivity := "other". (* /repo/cyclonedx.go:1128 *)
Definition MLModelEnergySourceCoal : MLModelEnergySource := "coal". (* /repo/cyclonedx.go:1148 *)
Definition MLModelEnergySourceOil : MLModelEnergySource := "oil". (* /repo/cyclonedx.go:1149 *)
Definition MLModelEnergySourceNaturalGas : MLModelEnergySource := "natural-gas". (* /repo/cyclonedx.go:1150 *)
Definition MLModelEnergySourceNuclear : MLModelEnergySource := "nuclear". (* /repo/cyclonedx.go:1151 *)
Definition MLModelEnergySourceWind : MLModelEnergySource := "wind". (* /repo/cyclonedx.go:1152 *)
Definition MLModelEnergySourceSolar : MLModelEnergySource := "solar". (* /repo/cyclonedx.go:1153 *)
Definition MLModelEnergySourceGeothermal : MLModelEnergySource := "geothermal". (* /repo/cyclonedx.go:1154 *)
Definition MLModelEnergySourceHydropower : MLModelEnergySource := "hydropower". (* /repo/cyclonedx.go:1155 *)
Definition MLModelEnergySourceBiofuel : MLModelEnergySource := "biofuel". (* /repo/cyclonedx.go:1156 *)
Definition MLModelEnergySourceUnknown : MLModelEnergySource := "unknown". (* /repo/cyclonedx.go:1157 *)
Definition MLModelEnergySourceOther : MLModelEnergySource := "other". (* /repo/cyclonedx.go:1158 *)
Definition MLModelParametersApproachTypeSupervised : MLModelParametersApproachType := "supervised". (* /repo/cyclonedx.go:1182 *)
Definition MLModelParametersApproachTypeUnsupervised : MLModelParametersApproachType := "unsupervised". (* /repo/cyclonedx.go:1183 *)
Definition MLModelParametersApproachTypeReinforcementLearning : MLModelParametersApproachType := "reinforcement-learning". (* /repo/cyclonedx.go:1184 *)
Definition MLModelParametersApproachTypeSemiSupervised : MLModelParametersApproachType := "semi-supervised". (* /repo/cyclonedx.go:1185 *)
Definition MLModelParametersApproachTypeSelfSupervised : MLModelParametersApproachType := "self-supervised". (* /repo/cyclonedx.go:1186 *)
Definition PatchTypeBackport : PatchType := "backport". (* /repo/cyclonedx.go:1246 *)
Definition PatchTypeCherryPick : PatchType := "cherry-pick". (* /repo/cyclonedx.go:1247 *)
Definition PatchTypeMonkey : PatchType := "monkey". (* /repo/cyclonedx.go:1248 *)
Definition PatchTypeUnofficial : PatchType := "unofficial". (* /repo/cyclonedx.go:1249 *)
Definition RelatedCryptoMaterialTypePrivateKey : RelatedCryptoMaterialType := "private-key". (* /repo/cyclonedx.go:1302 *)
Definition RelatedCryptoMaterialTypePublicKey : RelatedCryptoMaterialType := "public-key". (* /repo/cyclonedx.go:1303 *)
Definition RelatedCryptoMaterialTypeSecretKey : RelatedCryptoMaterialType := "secret-key". (* /repo/cyclonedx.go:1304 *)
Definition RelatedCryptoMaterialTypeKey : RelatedCryptoMaterialType := "key". (* /repo/cyclonedx.go:1305 *)
Definition RelatedCryptoMaterialTypeCiphertext : RelatedCryptoMaterialType := "ciphertext". (* /repo/cyclonedx.go:1306 *)
Definition RelatedCryptoMaterialTypeSignature : RelatedCryptoMaterialType := "signature". (* /repo/cyclonedx.go:1307 *)
Definition RelatedCryptoMaterialTypeDigest : RelatedCryptoMaterialType := "digest". (* /repo/cyclonedx.go:1308 *)
Definition RelatedCryptoMaterialTypeInitializationVector : RelatedCryptoMaterialType := "initialization-vector". (* /repo/cyclonedx.go:1309 *)
Definition RelatedCryptoMaterialTypeNonce : RelatedCryptoMaterialType := "nonce". (* /repo/cyclonedx.go:1310 *)
Definition RelatedCryptoMaterialTypeSeed : RelatedCryptoMaterialType := "seed". (* /repo/cyclonedx.go:1311 *)
Definition RelatedCryptoMaterialTypeSalt : RelatedCryptoMaterialType := "salt". (* /repo/cyclonedx.go:1312 *)
Definition RelatedCryptoMaterialTypeSharedSecret : RelatedCryptoMaterialType := "shared-secret". (* /repo/cyclonedx.go:1313 *)
Definition RelatedCryptoMaterialTypeTag : RelatedCryptoMaterialType := "tag". (* /repo/cyclonedx.go:1314 *)
Definition RelatedCryptoMaterialTypeAdditionalData : RelatedCryptoMaterialType := "additional-data". (* /repo/cyclonedx.go:1315 *)
Definition RelatedCryptoMaterialTypePassword : RelatedCryptoMaterialType := "password". (* /repo/cyclonedx.go:1316 *)
Definition RelatedCryptoMaterialTypeCredential : RelatedCryptoMaterialType := "credential". (* /repo/cyclonedx.go:1317 *)
Definition RelatedCryptoMaterialTypeToken : RelatedCryptoMaterialType := "token". (* /repo/cyclonedx.go:1318 *)
Definition RelatedCryptoMaterialTypeOther : RelatedCryptoMaterialType := "other". (* /repo/cyclonedx.go:1319 *)
Definition RelatedCryptoMaterialTypeUnknown : RelatedCryptoMaterialType := "unknown". (* /repo/cyclonedx.go:1320 *)
Definition ScopeExcluded : Scope := "excluded". (* /repo/cyclonedx.go:1345 *)
Definition ScopeOptional : Scope := "optional". (* /repo/cyclonedx.go:1346 *)
Definition ScopeRequired : Scope := "required". (* /repo/cyclonedx.go:1347 *)
Definition ScoringMethodOther : ScoringMethod := "other". (* /repo/cyclonedx.go:1353 *)
Definition ScoringMethodCVSSv2 : ScoringMethod := "CVSSv2". (* /repo/cyclonedx.go:1354 *)
Definition ScoringMethodCVSSv3 : ScoringMethod := "CVSSv3". (* /repo/cyclonedx.go:1355 *)
Definition ScoringMethodCVSSv31 : ScoringMethod := "CVSSv31". (* /repo/cyclonedx.go:1356 *)
Definition ScoringMethodCVSSv4 : ScoringMethod := "CVSSv4". (* /repo/cyclonedx.go:1357 *)
Definition ScoringMethodOWASP : ScoringMethod := "OWASP". (* /repo/cyclonedx.go:1358 *)
Definition ScoringMethodSSVC : ScoringMethod := "SSVC". (* /repo/cyclonedx.go:1359 *)
Definition SeverityUnknown : Severity := "unknown". (* /repo/cyclonedx.go:1387 *)
Definition SeverityNone : Severity := "none". (* /repo/cyclonedx.go:1388 *)
Definition SeverityInfo : Severity := "info". (* /repo/cyclonedx.go:1389 *)
Definition SeverityLow : Severity := "low". (* /repo/cyclonedx.go:1390 *)
Definition SeverityMedium : Severity := "medium". (* /repo/cyclonedx.go:1391 *)
Definition SeverityHigh : Severity := "high". (* /repo/cyclonedx.go:1392 *)
Definition SeverityCritical : Severity := "critical". (* /repo/cyclonedx.go:1393 *)
Definition TaskOutputTypeArtifact : TaskOutputType := "artifact". (* /repo/cyclonedx.go:1506 *)
Definition TaskOutputTypeAttestation : TaskOutputType := "attestation". (* /repo/cyclonedx.go:1507 *)
Definition TaskOutputTypeEvidence : TaskOutputType := "evidence". (* /repo/cyclonedx.go:1508 *)
Definition TaskOutputTypeLog : TaskOutputType := "log". (* /repo/cyclonedx.go:1509 *)
Definition TaskOutputTypeMetrics : TaskOutputType := "metrics". (* /repo/cyclonedx.go:1510 *)
Definition TaskOutputTypeOther : TaskOutputType := "other". (* /repo/cyclonedx.go:1511 *)
Definition TaskTriggerTypeAPI : TaskTriggerType := "api". (* /repo/cyclonedx.go:1545 *)
Definition TaskTriggerTypeManual : TaskTriggerType := "manual". (* /repo/cyclonedx.go:1546 *)
Definition TaskTriggerTypeScheduled : TaskTriggerType := "scheduled". (* /repo/cyclonedx.go:1547 *)
Definition TaskTriggerTypeWebhook : TaskTriggerType := "webhook". (* /repo/cyclonedx.go:1548 *)
Definition TaskTypeBuild : TaskType := "build". (* /repo/cyclonedx.go:1554 *)
Definition TaskTypeClean : TaskType := "clean". (* /repo/cyclonedx.go:1555 *)
Definition TaskTypeClone : TaskType := "clone". (* /repo/cyclonedx.go:1556 *)
Definition TaskTypeCopy : TaskType := "copy". (* /repo/cyclonedx.go:1557 *)
Definition TaskTypeDeliver : TaskType := "deliver". (* /repo/cyclonedx.go:1558 *)
Definition TaskTypeDeploy : TaskType := "deploy". (* /repo/cyclonedx.go:1559 *)
Definition TaskTypeLint : TaskType := "lint". (* /repo/cyclonedx.go:1560 *)
Definition TaskTypeMerge : TaskType := "merge". (* /repo/cyclonedx.go:1561 *)
Definition TaskTypeOther : TaskType := "other". (* /repo/cyclonedx.go:1562 *)
Definition TaskTypeRelease : TaskType := "release". (* /repo/cyclonedx.go:1563 *)
Definition TaskTypeScan : TaskType := "scan". (* /repo/cyclonedx.go:1564 *)
Definition TaskTypeTest : TaskType := "test". (* /repo/cyclonedx.go:1565 *)
Definition TaskWorkspaceAccessModeReadOnly : TaskWorkspaceAccessMode := "read-only". (* /repo/cyclonedx.go:1586 *)
Definition TaskWorkspaceAccessModeReadWrite : TaskWorkspaceAccessMode := "read-write". (* /repo/cyclonedx.go:1587 *)
Definition TaskWorkspaceAccessModeReadWriteOnce : TaskWorkspaceAccessMode := "read-write-once". (* /repo/cyclonedx.go:1588 *)
Definition TaskWorkspaceAccessModeWriteOnce : TaskWorkspaceAccessMode := "write-once". (* /repo/cyclonedx.go:1589 *)
Definition TaskWorkspaceAccessModeWriteOnly : TaskWorkspaceAccessMode := "write-only". (* /repo/cyclonedx.go:1590 *)
Definition VolumeModeBlock : VolumeMode := "block". (* /repo/cyclonedx.go:1630 *)
Definition VolumeModeFilesystem : VolumeMode := "file-system". (* /repo/cyclonedx.go:1631 *)
Definition VulnerabilityStatusUnknown : VulnerabilityStatus := "unknown". (* /repo/cyclonedx.go:1684 *)
Definition VulnerabilityStatusAffected : VulnerabilityStatus := "affected". (* /repo/cyclonedx.go:1685 *)
Definition VulnerabilityStatusNotAffected : VulnerabilityStatus := "unaffected". (* /repo/cyclonedx.go:1686 *)
Definition PatentLegalStatusPending : PatentLegalStatus := "pending". (* /repo/cyclonedx.go:1727 *)
Definition PatentLegalStatusGranted : PatentLegalStatus := "granted". (* /repo/cyclonedx.go:1728 *)
Definition PatentLegalStatusRevoked : PatentLegalStatus := "revoked". (* /repo/cyclonedx.go:1729 *)
Definition PatentLegalStatusExpired : PatentLegalStatus := "expired". (* /repo/cyclonedx.go:1730 *)
Definition PatentLegalStatusLapsed : PatentLegalStatus := "lapsed". (* /repo/cyclonedx.go:1731 *)
Definition PatentLegalStatusWithdrawn : PatentLegalStatus := "withdrawn". (* /repo/cyclonedx.go:1732 *)
Definition PatentLegalStatusAbandoned : PatentLegalStatus := "abandoned". (* /repo/cyclonedx.go:1733 *)
Definition PatentLegalStatusSuspended : PatentLegalStatus := "suspended". (* /repo/cyclonedx.go:1734 *)
Definition PatentLegalStatusReinstated : PatentLegalStatus := "reinstated". (* /repo/cyclonedx.go:1735 *)
Definition PatentLegalStatusOpposed : PatentLegalStatus := "opposed". (* /repo/cyclonedx.go:1736 *)
Definition PatentLegalStatusTerminated : PatentLegalStatus := "terminated". (* /repo/cyclonedx.go:1737 *)
Definition PatentLegalStatusInvalidated : PatentLegalStatus := "invalidated". (* /repo/cyclonedx.go:1738 *)
Definition PatentLegalStatusInForce : PatentLegalStatus := "in-force". (* /repo/cyclonedx.go:1739 *)
Definition PatentAssertionTypeOwnership : PatentAssertionType := "ownership". (* /repo/cyclonedx.go:1791 *)
Definition PatentAssertionTypeLicense : PatentAssertionType := "license". (* /repo/cyclonedx.go:1792 *)
Definition PatentAssertionTypeThirdPartyClaim : PatentAssertionType := "third-party-claim". (* /repo/cyclonedx.go:1793 *)
Definition PatentAssertionTypeStandardsInclusion : PatentAssertionType := "standards-inclusion". (* /repo/cyclonedx.go:1794 *)
Definition PatentAssertionTypePriorArt : PatentAssertionType := "prior-art". (* /repo/cyclonedx.go:1795 *)
Definition PatentAssertionTypeExclusiveRights : PatentAssertionType := "exclusive-rights". (* /repo/cyclonedx.go:1796 *)
Definition PatentAssertionTypeNonAssertion : PatentAssertionType := "non-assertion". (* /repo/cyclonedx.go:1797 *)
Definition PatentAssertionTypeResearchOrEvaluation : PatentAssertionType := "research-or-evaluation". (* /repo/cyclonedx.go:1798 *)
Definition TLPClassificationClear : TLPClassification := "CLEAR". (* /repo/cyclonedx.go:1817 *)
Definition TLPClassificationGreen : TLPClassification := "GREEN". (* /repo/cyclonedx.go:1818 *)
Definition TLPClassificationAmber : TLPClassification := "AMBER". (* /repo/cyclonedx.go:1819 *)
Definition TLPClassificationAmberAndStrict : TLPClassification := "AMBER_AND_STRICT". (* /repo/cyclonedx.go:1820 *)
Definition TLPClassificationRed : TLPClassification := "RED". (* /repo/cyclonedx.go:1821 *)
Definition CertificateStatePreActivation : CertificateStateType := "pre-activation". (* /repo/cyclonedx.go:1896 *)
Definition CertificateStateActive : CertificateStateType := "active". (* /repo/cyclonedx.go:1897 *)
Definition CertificateStateSuspended : CertificateStateType := "suspended". (* /repo/cyclonedx.go:1898 *)
Definition CertificateStateDeactivated : CertificateStateType := "deactivated". (* /repo/cyclonedx.go:1899 *)
Definition CertificateStateRevoked : CertificateStateType := "revoked". (* /repo/cyclonedx.go:1900 *)
Definition CertificateStateDestroyed : CertificateStateType := "destroyed". (* /repo/cyclonedx.go:1901 *)
Definition CertExtBasicConstraints : CertificateExtensionName := "basicConstraints". (* /repo/cyclonedx.go:1928 *)
Definition CertExtKeyUsage : CertificateExtensionName := "keyUsage". (* /repo/cyclonedx.go:1929 *)
Definition CertExtExtendedKeyUsage : CertificateExtensionName := "extendedKeyUsage". (* /repo/cyclonedx.go:1930 *)
Definition CertExtSubjectAlternativeName : CertificateExtensionName := "subjectAlternativeName". (* /repo/cyclonedx.go:1931 *)
Definition CertExtAuthorityKeyIdentifier : CertificateExtensionName := "authorityKeyIdentifier". (* /repo/cyclonedx.go:1932 *)
Definition CertExtSubjectKeyIdentifier : CertificateExtensionName := "subjectKeyIdentifier". (* /repo/cyclonedx.go:1933 *)
Definition CertExtAuthorityInformationAccess : CertificateExtensionName := "authorityInformationAccess". (* /repo/cyclonedx.go:1934 *)
Definition CertExtCertificatePolicies : CertificateExtensionName := "certificatePolicies". (* /repo/cyclonedx.go:1935 *)
Definition CertExtCRLDistributionPoints : CertificateExtensionName := "crlDistributionPoints". (* /repo/cyclonedx.go:1936 *)
Definition CertExtSignedCertificateTimestamp : CertificateExtensionName := "signedCertificateTimestamp". (* /repo/cyclonedx.go:1937 *)
