(** Generated by tools/gen_xsd.py from /repo/schema/bom-1.7.xsd: for every type of elements
    its attributes, the elements within it with their types, and whether it holds text. The
    type "" is that of elements that hold text only. Left out: order, number of occurrences,
    which values a simple type allows, xs:any and xs:anyAttribute. *)
From Verif Require Import Base XsdSpec.
Local Open Scope string_scope.

Definition xsd_1_7 : xsd :=
  [("", mkType [] [] true);
   ("bom", mkType ["version"; "serialNumber"] [("metadata", "metadata"); ("components", "componentsType"); ("services", "servicesType"); ("externalReferences", "externalReferences"); ("dependencies", "dependenciesType"); ("compositions", "compositionsType"); ("properties", "propertiesType"); ("vulnerabilities", "vulnerabilitiesType"); ("annotations", "annotationsType"); ("formulation", "formulationType"); ("declarations", "declarationsType"); ("definitions", "definitionsType"); ("citations", "citationsType")] false);
   ("metadata", mkType [] [("timestamp", ""); ("lifecycles", "metadata/lifecycles"); ("tools", "metadata/tools"); ("authors", "metadata/authors"); ("component", "component"); ("manufacturer", "organizationalEntity"); ("manufacture", "organizationalEntity"); ("supplier", "organizationalEntity"); ("licenses", "licenseChoiceType"); ("properties", "propertiesType"); ("distributionConstraints", "metadata/distributionConstraints")] false);
   ("metadata/lifecycles", mkType [] [("lifecycle", "metadata/lifecycles/lifecycle")] false);
   ("metadata/lifecycles/lifecycle", mkType [] [("phase", ""); ("name", ""); ("description", "")] false);
   ("metadata/tools", mkType [] [("tool", "toolType"); ("components", "componentsType"); ("services", "servicesType")] false);
   ("toolType", mkType [] [("vendor", ""); ("name", ""); ("version", ""); ("hashes", "toolType/hashes"); ("externalReferences", "externalReferences")] false);
   ("toolType/hashes", mkType [] [("hash", "hashType")] false);
   ("hashType", mkType ["alg"] [] true);
   ("externalReferences", mkType [] [("reference", "externalReference")] false);
   ("externalReference", mkType ["type"] [("url", ""); ("comment", ""); ("hashes", "externalReference/hashes"); ("properties", "propertiesType")] false);
   ("externalReference/hashes", mkType [] [("hash", "hashType")] false);
   ("propertiesType", mkType [] [("property", "propertyType")] false);
   ("propertyType", mkType ["name"] [] true);
   ("componentsType", mkType [] [("component", "component")] false);
   ("component", mkType ["type"; "mime-type"; "isExternal"; "bom-ref"] [("supplier", "organizationalEntity"); ("manufacturer", "organizationalEntity"); ("authors", "component/authors"); ("author", ""); ("publisher", ""); ("group", ""); ("name", ""); ("version", ""); ("versionRange", ""); ("description", ""); ("scope", ""); ("hashes", "component/hashes"); ("licenses", "licenseChoiceType"); ("copyright", ""); ("patentAssertions", "component/patentAssertions"); ("cpe", ""); ("purl", ""); ("omniborId", ""); ("swhid", ""); ("swid", "swidType"); ("modified", ""); ("pedigree", "pedigreeType"); ("externalReferences", "externalReferences"); ("properties", "propertiesType"); ("components", "component/components"); ("evidence", "componentEvidenceType"); ("releaseNotes", "releaseNotesType"); ("modelCard", "modelCardType"); ("data", "componentDataType"); ("cryptoProperties", "cryptoPropertiesType"); ("tags", "tagsType")] false);
   ("organizationalEntity", mkType ["bom-ref"] [("name", ""); ("address", "postalAddressType"); ("url", ""); ("contact", "organizationalContact")] false);
   ("postalAddressType", mkType ["bom-ref"] [("country", ""); ("region", ""); ("locality", ""); ("postOfficeBoxNumber", ""); ("postalCode", ""); ("streetAddress", "")] false);
   ("organizationalContact", mkType ["bom-ref"] [("name", ""); ("email", ""); ("phone", "")] false);
   ("component/authors", mkType [] [("author", "organizationalContact")] false);
   ("component/hashes", mkType [] [("hash", "hashType")] false);
   ("licenseChoiceType", mkType [] [("license", "licenseType"); ("expression", "licenseExpressionType"); ("expression-detailed", "licenseExpressionDetailedType")] false);
   ("licenseType", mkType ["bom-ref"; "acknowledgement"] [("id", ""); ("name", ""); ("text", "attachedTextType"); ("url", ""); ("licensing", "licensingType"); ("properties", "propertiesType")] false);
   ("attachedTextType", mkType ["content-type"; "encoding"] [] true);
   ("licensingType", mkType [] [("altIds", "licensingType/altIds"); ("licensor", "licensingType/licensor"); ("licensee", "licensingType/licensee"); ("purchaser", "licensingType/purchaser"); ("purchaseOrder", ""); ("licenseTypes", "licensingType/licenseTypes"); ("lastRenewal", ""); ("expiration", "")] false);
   ("licensingType/altIds", mkType [] [("altId", "")] false);
   ("licensingType/licensor", mkType [] [("organization", "organizationalEntity"); ("individual", "organizationalContact")] false);
   ("licensingType/licensee", mkType [] [("organization", "organizationalEntity"); ("individual", "organizationalContact")] false);
   ("licensingType/purchaser", mkType [] [("organization", "organizationalEntity"); ("individual", "organizationalContact")] false);
   ("licensingType/licenseTypes", mkType [] [("licenseType", "")] false);
   ("licenseExpressionType", mkType ["bom-ref"; "acknowledgement"] [] true);
   ("licenseExpressionDetailedType", mkType ["bom-ref"; "acknowledgement"; "expression"] [("details", "licenseExpressionDetailedType/details"); ("licensing", "licensingType"); ("properties", "propertiesType")] false);
   ("licenseExpressionDetailedType/details", mkType ["license-identifier"; "bom-ref"] [("text", "attachedTextType"); ("url", "")] false);
   ("component/patentAssertions", mkType [] [("patentAssertion", "patentAssertionType")] false);
   ("patentAssertionType", mkType ["bom-ref"] [("assertionType", ""); ("patentRefs", "patentAssertionType/patentRefs"); ("asserter", "patentAssertionType/asserter"); ("notes", "")] false);
   ("patentAssertionType/patentRefs", mkType [] [("bom-ref", "")] false);
   ("patentAssertionType/asserter", mkType [] [("organization", "organizationalEntity"); ("contact", "organizationalContact"); ("ref", "")] false);
   ("swidType", mkType ["tagId"; "name"; "version"; "tagVersion"; "patch"] [("text", "attachedTextType"); ("url", "")] false);
   ("pedigreeType", mkType [] [("ancestors", "componentsType"); ("descendants", "componentsType"); ("variants", "componentsType"); ("commits", "commitsType"); ("patches", "patchesType"); ("notes", "")] false);
   ("commitsType", mkType [] [("commit", "commitType")] false);
   ("commitType", mkType [] [("uid", ""); ("url", ""); ("author", "identifiableActionType"); ("committer", "identifiableActionType"); ("message", "")] false);
   ("identifiableActionType", mkType [] [("timestamp", ""); ("name", ""); ("email", "")] false);
   ("patchesType", mkType [] [("patch", "patchType")] false);
   ("patchType", mkType ["type"] [("diff", "diffType"); ("resolves", "patchType/resolves")] false);
   ("diffType", mkType [] [("text", "attachedTextType"); ("url", "")] false);
   ("patchType/resolves", mkType [] [("issue", "issueType")] false);
   ("issueType", mkType ["type"] [("id", ""); ("name", ""); ("description", ""); ("source", "issueType/source"); ("references", "issueType/references")] false);
   ("issueType/source", mkType [] [("name", ""); ("url", "")] false);
   ("issueType/references", mkType [] [("url", "")] false);
   ("component/components", mkType [] [("component", "component")] false);
   ("componentEvidenceType", mkType [] [("identity", "componentEvidenceType/identity"); ("occurrences", "componentEvidenceType/occurrences"); ("callstack", "componentEvidenceType/callstack"); ("licenses", "licenseChoiceType"); ("copyright", "copyrightsType")] false);
   ("componentEvidenceType/identity", mkType [] [("field", ""); ("confidence", ""); ("concludedValue", ""); ("methods", "componentEvidenceType/identity/methods"); ("tools", "componentEvidenceType/identity/tools")] false);
   ("componentEvidenceType/identity/methods", mkType [] [("method", "componentEvidenceType/identity/methods/method")] false);
   ("componentEvidenceType/identity/methods/method", mkType [] [("technique", ""); ("confidence", ""); ("value", "")] false);
   ("componentEvidenceType/identity/tools", mkType [] [("tool", "bomReferenceType")] false);
   ("bomReferenceType", mkType ["ref"] [] false);
   ("componentEvidenceType/occurrences", mkType [] [("occurrence", "componentEvidenceType/occurrences/occurrence")] false);
   ("componentEvidenceType/occurrences/occurrence", mkType ["bom-ref"] [("location", ""); ("line", ""); ("offset", ""); ("symbol", ""); ("additionalContext", "")] false);
   ("componentEvidenceType/callstack", mkType [] [("frames", "componentEvidenceType/callstack/frames"); ("tools", "componentEvidenceType/callstack/tools")] false);
   ("componentEvidenceType/callstack/frames", mkType [] [("frame", "componentEvidenceType/callstack/frames/frame")] false);
   ("componentEvidenceType/callstack/frames/frame", mkType [] [("package", ""); ("module", ""); ("function", ""); ("parameters", "componentEvidenceType/callstack/frames/frame/parameters"); ("line", ""); ("column", ""); ("fullFilename", "")] false);
   ("componentEvidenceType/callstack/frames/frame/parameters", mkType [] [("parameter", "")] false);
   ("componentEvidenceType/callstack/tools", mkType [] [("tool", "bomReferenceType")] false);
   ("copyrightsType", mkType [] [("text", "")] false);
   ("releaseNotesType", mkType [] [("type", ""); ("title", ""); ("featuredImage", ""); ("socialImage", ""); ("description", ""); ("timestamp", ""); ("aliases", "releaseNotesType/aliases"); ("tags", "tagsType"); ("resolves", "releaseNotesType/resolves"); ("notes", "releaseNotesType/notes"); ("properties", "propertiesType")] false);
   ("releaseNotesType/aliases", mkType [] [("alias", "")] false);
   ("tagsType", mkType [] [("tag", "")] false);
   ("releaseNotesType/resolves", mkType [] [("issue", "issueType")] false);
   ("releaseNotesType/notes", mkType [] [("note", "releaseNotesType/notes/note")] false);
   ("releaseNotesType/notes/note", mkType [] [("locale", ""); ("text", "attachedTextType")] false);
   ("modelCardType", mkType ["bom-ref"] [("modelParameters", "modelCardType/modelParameters"); ("quantitativeAnalysis", "modelCardType/quantitativeAnalysis"); ("considerations", "modelCardType/considerations")] false);
   ("modelCardType/modelParameters", mkType [] [("approach", "modelCardType/modelParameters/approach"); ("task", ""); ("architectureFamily", ""); ("modelArchitecture", ""); ("datasets", "modelCardType/modelParameters/datasets"); ("inputs", "modelCardType/modelParameters/inputs"); ("outputs", "modelCardType/modelParameters/outputs")] false);
   ("modelCardType/modelParameters/approach", mkType [] [("type", "")] false);
   ("modelCardType/modelParameters/datasets", mkType [] [("ref", ""); ("dataset", "componentDataType")] false);
   ("componentDataType", mkType ["bom-ref"] [("type", ""); ("name", ""); ("contents", "componentDataType/contents"); ("classification", ""); ("sensitiveData", ""); ("graphics", "graphicsCollectionType"); ("description", ""); ("governance", "dataGovernance")] false);
   ("componentDataType/contents", mkType [] [("attachment", "attachedTextType"); ("url", ""); ("properties", "propertiesType")] false);
   ("graphicsCollectionType", mkType [] [("description", ""); ("collection", "graphicsCollectionType/collection")] false);
   ("graphicsCollectionType/collection", mkType [] [("graphic", "graphicsCollectionType/collection/graphic")] false);
   ("graphicsCollectionType/collection/graphic", mkType [] [("name", ""); ("image", "attachedTextType")] false);
   ("dataGovernance", mkType [] [("custodians", "dataGovernance/custodians"); ("stewards", "dataGovernance/stewards"); ("owners", "dataGovernance/owners")] false);
   ("dataGovernance/custodians", mkType [] [("custodian", "organizationOrIndividualType")] false);
   ("organizationOrIndividualType", mkType [] [("organization", "organizationalEntity"); ("individual", "organizationalContact")] false);
   ("dataGovernance/stewards", mkType [] [("steward", "organizationOrIndividualType")] false);
   ("dataGovernance/owners", mkType [] [("owner", "organizationOrIndividualType")] false);
   ("modelCardType/modelParameters/inputs", mkType [] [("input", "modelCardType/modelParameters/inputs/input")] false);
   ("modelCardType/modelParameters/inputs/input", mkType [] [("format", "")] false);
   ("modelCardType/modelParameters/outputs", mkType [] [("output", "modelCardType/modelParameters/outputs/output")] false);
   ("modelCardType/modelParameters/outputs/output", mkType [] [("format", "")] false);
   ("modelCardType/quantitativeAnalysis", mkType [] [("performanceMetrics", "modelCardType/quantitativeAnalysis/performanceMetrics"); ("graphics", "modelCardType/quantitativeAnalysis/graphics")] false);
   ("modelCardType/quantitativeAnalysis/performanceMetrics", mkType [] [("performanceMetric", "modelCardType/quantitativeAnalysis/performanceMetrics/performanceMetric")] false);
   ("modelCardType/quantitativeAnalysis/performanceMetrics/performanceMetric", mkType [] [("type", ""); ("value", ""); ("slice", ""); ("confidenceInterval", "modelCardType/quantitativeAnalysis/performanceMetrics/performanceMetric/confidenceInterval")] false);
   ("modelCardType/quantitativeAnalysis/performanceMetrics/performanceMetric/confidenceInterval", mkType [] [("lowerBound", ""); ("upperBound", "")] false);
   ("modelCardType/quantitativeAnalysis/graphics", mkType [] [("description", ""); ("collection", "modelCardType/quantitativeAnalysis/graphics/collection")] false);
   ("modelCardType/quantitativeAnalysis/graphics/collection", mkType [] [("graphic", "modelCardType/quantitativeAnalysis/graphics/collection/graphic")] false);
   ("modelCardType/quantitativeAnalysis/graphics/collection/graphic", mkType [] [("name", ""); ("image", "attachedTextType")] false);
   ("modelCardType/considerations", mkType [] [("users", "modelCardType/considerations/users"); ("useCases", "modelCardType/considerations/useCases"); ("technicalLimitations", "modelCardType/considerations/technicalLimitations"); ("performanceTradeoffs", "modelCardType/considerations/performanceTradeoffs"); ("ethicalConsiderations", "modelCardType/considerations/ethicalConsiderations"); ("environmentalConsiderations", "environmentalConsiderationsType"); ("fairnessAssessments", "modelCardType/considerations/fairnessAssessments")] false);
   ("modelCardType/considerations/users", mkType [] [("user", "")] false);
   ("modelCardType/considerations/useCases", mkType [] [("useCase", "")] false);
   ("modelCardType/considerations/technicalLimitations", mkType [] [("technicalLimitation", "")] false);
   ("modelCardType/considerations/performanceTradeoffs", mkType [] [("performanceTradeoff", "")] false);
   ("modelCardType/considerations/ethicalConsiderations", mkType [] [("ethicalConsideration", "modelCardType/considerations/ethicalConsiderations/ethicalConsideration")] false);
   ("modelCardType/considerations/ethicalConsiderations/ethicalConsideration", mkType [] [("name", ""); ("mitigationStrategy", "")] false);
   ("environmentalConsiderationsType", mkType [] [("energyConsumptions", "energyConsumptionsType"); ("properties", "propertiesType")] false);
   ("energyConsumptionsType", mkType [] [("energyConsumption", "energyConsumptionType")] false);
   ("energyConsumptionType", mkType [] [("activity", ""); ("energyProviders", "energyProviderType"); ("activityEnergyCost", "energyMeasureType"); ("co2CostEquivalent", "co2MeasureType"); ("co2CostOffset", "co2MeasureType"); ("properties", "propertiesType")] false);
   ("energyProviderType", mkType ["bom-ref"] [("description", ""); ("organization", "organizationalEntity"); ("energySource", ""); ("energyProvided", "energyMeasureType"); ("externalReferences", "externalReferences")] false);
   ("energyMeasureType", mkType [] [("value", ""); ("unit", "")] false);
   ("co2MeasureType", mkType [] [("value", ""); ("unit", "")] false);
   ("modelCardType/considerations/fairnessAssessments", mkType [] [("fairnessAssessment", "modelCardType/considerations/fairnessAssessments/fairnessAssessment")] false);
   ("modelCardType/considerations/fairnessAssessments/fairnessAssessment", mkType [] [("groupAtRisk", ""); ("benefits", ""); ("harms", ""); ("mitigationStrategy", "")] false);
   ("cryptoPropertiesType", mkType [] [("assetType", ""); ("algorithmProperties", "cryptoPropertiesType/algorithmProperties"); ("certificateProperties", "cryptoPropertiesType/certificateProperties"); ("relatedCryptoMaterialProperties", "cryptoPropertiesType/relatedCryptoMaterialProperties"); ("protocolProperties", "cryptoPropertiesType/protocolProperties"); ("oid", "")] false);
   ("cryptoPropertiesType/algorithmProperties", mkType [] [("primitive", ""); ("algorithmFamily", ""); ("parameterSetIdentifier", ""); ("curve", ""); ("ellipticCurve", ""); ("executionEnvironment", ""); ("implementationPlatform", ""); ("certificationLevel", ""); ("mode", ""); ("padding", ""); ("cryptoFunctions", "cryptoPropertiesType/algorithmProperties/cryptoFunctions"); ("classicalSecurityLevel", ""); ("nistQuantumSecurityLevel", "")] false);
   ("cryptoPropertiesType/algorithmProperties/cryptoFunctions", mkType [] [("cryptoFunction", "")] false);
   ("cryptoPropertiesType/certificateProperties", mkType [] [("serialNumber", ""); ("subjectName", ""); ("issuerName", ""); ("notValidBefore", ""); ("notValidAfter", ""); ("signatureAlgorithmRef", ""); ("subjectPublicKeyRef", ""); ("certificateFormat", ""); ("certificateExtension", ""); ("certificateFileExtension", ""); ("fingerprint", "hashType"); ("certificateState", "cryptoPropertiesType/certificateProperties/certificateState"); ("creationDate", ""); ("activationDate", ""); ("deactivationDate", ""); ("revocationDate", ""); ("destructionDate", ""); ("certificateExtensions", "cryptoPropertiesType/certificateProperties/certificateExtensions"); ("relatedCryptographicAssets", "cryptoPropertiesType/certificateProperties/relatedCryptographicAssets")] false);
   ("cryptoPropertiesType/certificateProperties/certificateState", mkType [] [("state", ""); ("reason", ""); ("name", ""); ("description", "")] false);
   ("cryptoPropertiesType/certificateProperties/certificateExtensions", mkType [] [("certificateExtension", "cryptoPropertiesType/certificateProperties/certificateExtensions/certificateExtension")] false);
   ("cryptoPropertiesType/certificateProperties/certificateExtensions/certificateExtension", mkType [] [("commonExtensionName", ""); ("commonExtensionValue", ""); ("customExtensionName", ""); ("customExtensionValue", "")] false);
   ("cryptoPropertiesType/certificateProperties/relatedCryptographicAssets", mkType [] [("relatedCryptographicAsset", "cryptoPropertiesType/certificateProperties/relatedCryptographicAssets/relatedCryptographicAsset")] false);
   ("cryptoPropertiesType/certificateProperties/relatedCryptographicAssets/relatedCryptographicAsset", mkType [] [("type", ""); ("ref", "")] false);
   ("cryptoPropertiesType/relatedCryptoMaterialProperties", mkType [] [("type", ""); ("id", ""); ("state", ""); ("algorithmRef", ""); ("creationDate", ""); ("activationDate", ""); ("updateDate", ""); ("expirationDate", ""); ("value", ""); ("size", ""); ("format", ""); ("securedBy", "cryptoPropertiesType/relatedCryptoMaterialProperties/securedBy"); ("fingerprint", "hashType"); ("relatedCryptographicAssets", "cryptoPropertiesType/relatedCryptoMaterialProperties/relatedCryptographicAssets")] false);
   ("cryptoPropertiesType/relatedCryptoMaterialProperties/securedBy", mkType [] [("mechanism", ""); ("algorithmRef", "")] false);
   ("cryptoPropertiesType/relatedCryptoMaterialProperties/relatedCryptographicAssets", mkType [] [("relatedCryptographicAsset", "cryptoPropertiesType/relatedCryptoMaterialProperties/relatedCryptographicAssets/relatedCryptographicAsset")] false);
   ("cryptoPropertiesType/relatedCryptoMaterialProperties/relatedCryptographicAssets/relatedCryptographicAsset", mkType [] [("type", ""); ("ref", "")] false);
   ("cryptoPropertiesType/protocolProperties", mkType [] [("type", ""); ("version", ""); ("cipherSuites", "cryptoPropertiesType/protocolProperties/cipherSuites"); ("ikev2TransformTypes", "cryptoPropertiesType/protocolProperties/ikev2TransformTypes"); ("cryptoRef", "")] false);
   ("cryptoPropertiesType/protocolProperties/cipherSuites", mkType [] [("cipherSuite", "cryptoPropertiesType/protocolProperties/cipherSuites/cipherSuite")] false);
   ("cryptoPropertiesType/protocolProperties/cipherSuites/cipherSuite", mkType [] [("name", ""); ("algorithms", "cryptoPropertiesType/protocolProperties/cipherSuites/cipherSuite/algorithms"); ("identifiers", "cryptoPropertiesType/protocolProperties/cipherSuites/cipherSuite/identifiers"); ("tlsGroups", "cryptoPropertiesType/protocolProperties/cipherSuites/cipherSuite/tlsGroups"); ("tlsSignatureSchemes", "cryptoPropertiesType/protocolProperties/cipherSuites/cipherSuite/tlsSignatureSchemes")] false);
   ("cryptoPropertiesType/protocolProperties/cipherSuites/cipherSuite/algorithms", mkType [] [("algorithm", "")] false);
   ("cryptoPropertiesType/protocolProperties/cipherSuites/cipherSuite/identifiers", mkType [] [("identifier", "")] false);
   ("cryptoPropertiesType/protocolProperties/cipherSuites/cipherSuite/tlsGroups", mkType [] [("group", "")] false);
   ("cryptoPropertiesType/protocolProperties/cipherSuites/cipherSuite/tlsSignatureSchemes", mkType [] [("signatureScheme", "")] false);
   ("cryptoPropertiesType/protocolProperties/ikev2TransformTypes", mkType [] [("encr", "cryptoPropertiesType/protocolProperties/ikev2TransformTypes/encr"); ("prf", "cryptoPropertiesType/protocolProperties/ikev2TransformTypes/prf"); ("integ", "cryptoPropertiesType/protocolProperties/ikev2TransformTypes/integ"); ("ke", "cryptoPropertiesType/protocolProperties/ikev2TransformTypes/ke"); ("esn", ""); ("auth", "cryptoPropertiesType/protocolProperties/ikev2TransformTypes/auth")] false);
   ("cryptoPropertiesType/protocolProperties/ikev2TransformTypes/encr", mkType [] [("name", ""); ("keyLength", ""); ("algorithm", "")] true);
   ("cryptoPropertiesType/protocolProperties/ikev2TransformTypes/prf", mkType [] [("name", ""); ("algorithm", "")] true);
   ("cryptoPropertiesType/protocolProperties/ikev2TransformTypes/integ", mkType [] [("name", ""); ("algorithm", "")] true);
   ("cryptoPropertiesType/protocolProperties/ikev2TransformTypes/ke", mkType [] [("group", ""); ("algorithm", "")] true);
   ("cryptoPropertiesType/protocolProperties/ikev2TransformTypes/auth", mkType [] [("name", ""); ("algorithm", "")] true);
   ("servicesType", mkType [] [("service", "service")] false);
   ("service", mkType ["bom-ref"] [("provider", "organizationalEntity"); ("group", ""); ("name", ""); ("version", ""); ("description", ""); ("endpoints", "service/endpoints"); ("authenticated", ""); ("x-trust-boundary", ""); ("trustZone", ""); ("data", "service/data"); ("licenses", "licenseChoiceType"); ("patentAssertions", "service/patentAssertions"); ("externalReferences", "externalReferences"); ("properties", "propertiesType"); ("services", "service/services"); ("releaseNotes", "releaseNotesType"); ("tags", "tagsType")] false);
   ("service/endpoints", mkType [] [("endpoint", "")] false);
   ("service/data", mkType [] [("classification", "dataClassificationType"); ("dataflow", "service/data/dataflow")] false);
   ("dataClassificationType", mkType ["flow"] [] true);
   ("service/data/dataflow", mkType ["name"; "description"] [("classification", "dataClassificationType"); ("governance", "dataGovernance"); ("source", "service/data/dataflow/source"); ("destination", "service/data/dataflow/destination")] false);
   ("service/data/dataflow/source", mkType [] [("url", "")] false);
   ("service/data/dataflow/destination", mkType [] [("url", "")] false);
   ("service/patentAssertions", mkType [] [("patentAssertion", "patentAssertionType")] false);
   ("service/services", mkType [] [("service", "service")] false);
   ("metadata/authors", mkType [] [("author", "organizationalContact")] false);
   ("metadata/distributionConstraints", mkType [] [("tlp", "")] false);
   ("dependenciesType", mkType [] [("dependency", "dependencyType")] false);
   ("dependencyType", mkType ["ref"] [("dependency", "dependencyType"); ("provides", "dependencyType/provides")] false);
   ("dependencyType/provides", mkType ["ref"] [] false);
   ("compositionsType", mkType [] [("composition", "compositionType")] false);
   ("compositionType", mkType ["bom-ref"] [("aggregate", ""); ("assemblies", "compositionType/assemblies"); ("dependencies", "compositionType/dependencies"); ("vulnerabilities", "compositionType/vulnerabilities")] false);
   ("compositionType/assemblies", mkType [] [("assembly", "bomReferenceType")] false);
   ("compositionType/dependencies", mkType [] [("dependency", "bomReferenceType")] false);
   ("compositionType/vulnerabilities", mkType [] [("vulnerability", "bomReferenceType")] false);
   ("vulnerabilitiesType", mkType [] [("vulnerability", "vulnerabilityType")] false);
   ("vulnerabilityType", mkType ["bom-ref"] [("id", ""); ("source", "vulnerabilitySourceType"); ("references", "vulnerabilityType/references"); ("ratings", "vulnerabilityType/ratings"); ("cwes", "vulnerabilityType/cwes"); ("description", ""); ("detail", ""); ("recommendation", ""); ("workaround", ""); ("proofOfConcept", "vulnerabilityType/proofOfConcept"); ("advisories", "vulnerabilityType/advisories"); ("created", ""); ("published", ""); ("updated", ""); ("rejected", ""); ("credits", "vulnerabilityType/credits"); ("tools", "vulnerabilityType/tools"); ("analysis", "vulnerabilityType/analysis"); ("affects", "vulnerabilityType/affects"); ("properties", "propertiesType")] false);
   ("vulnerabilitySourceType", mkType [] [("name", ""); ("url", "")] false);
   ("vulnerabilityType/references", mkType [] [("reference", "vulnerabilityType/references/reference")] false);
   ("vulnerabilityType/references/reference", mkType [] [("id", ""); ("source", "vulnerabilitySourceType")] false);
   ("vulnerabilityType/ratings", mkType [] [("rating", "ratingType")] false);
   ("ratingType", mkType [] [("source", "vulnerabilitySourceType"); ("score", ""); ("severity", ""); ("method", ""); ("vector", ""); ("justification", "")] false);
   ("vulnerabilityType/cwes", mkType [] [("cwe", "")] false);
   ("vulnerabilityType/proofOfConcept", mkType [] [("reproductionSteps", ""); ("environment", ""); ("supportingMaterial", "vulnerabilityType/proofOfConcept/supportingMaterial")] false);
   ("vulnerabilityType/proofOfConcept/supportingMaterial", mkType [] [("attachment", "attachedTextType")] false);
   ("vulnerabilityType/advisories", mkType [] [("advisory", "advisoryType")] false);
   ("advisoryType", mkType [] [("title", ""); ("url", "")] false);
   ("vulnerabilityType/credits", mkType [] [("organizations", "vulnerabilityType/credits/organizations"); ("individuals", "vulnerabilityType/credits/individuals")] false);
   ("vulnerabilityType/credits/organizations", mkType [] [("organization", "organizationalEntity")] false);
   ("vulnerabilityType/credits/individuals", mkType [] [("individual", "organizationalContact")] false);
   ("vulnerabilityType/tools", mkType [] [("tool", "toolType"); ("components", "componentsType"); ("services", "servicesType")] false);
   ("vulnerabilityType/analysis", mkType [] [("state", ""); ("justification", ""); ("responses", "vulnerabilityType/analysis/responses"); ("detail", ""); ("firstIssued", ""); ("lastUpdated", "")] false);
   ("vulnerabilityType/analysis/responses", mkType [] [("response", "")] false);
   ("vulnerabilityType/affects", mkType [] [("target", "vulnerabilityType/affects/target")] false);
   ("vulnerabilityType/affects/target", mkType [] [("ref", ""); ("versions", "vulnerabilityType/affects/target/versions")] false);
   ("vulnerabilityType/affects/target/versions", mkType [] [("version", "vulnerabilityType/affects/target/versions/version")] false);
   ("vulnerabilityType/affects/target/versions/version", mkType [] [("version", ""); ("range", ""); ("status", "")] false);
   ("annotationsType", mkType [] [("annotation", "annotationType")] false);
   ("annotationType", mkType ["bom-ref"] [("subjects", "annotationType/subjects"); ("annotator", "annotatorChoiceType"); ("timestamp", ""); ("text", "")] false);
   ("annotationType/subjects", mkType [] [("subject", "bomReferenceType")] false);
   ("annotatorChoiceType", mkType [] [("organization", "organizationalEntity"); ("individual", "organizationalContact"); ("component", "component"); ("service", "service")] false);
   ("formulationType", mkType [] [("formula", "formulaType")] false);
   ("formulaType", mkType ["bom-ref"] [("components", "componentsType"); ("services", "servicesType"); ("workflows", "workflowsType"); ("properties", "propertiesType")] false);
   ("workflowsType", mkType [] [("workflow", "workflowType")] false);
   ("workflowType", mkType ["bom-ref"] [("uid", ""); ("name", ""); ("description", ""); ("resourceReferences", "resourceReferencesType"); ("tasks", "tasksType"); ("taskDependencies", "dependenciesType"); ("taskTypes", "workflowType/taskTypes"); ("trigger", "triggerType"); ("steps", "workflowType/steps"); ("inputs", "workflowType/inputs"); ("outputs", "workflowType/outputs"); ("timeStart", ""); ("timeEnd", ""); ("workspaces", "workspacesType"); ("runtimeTopology", "dependenciesType"); ("properties", "propertiesType")] false);
   ("resourceReferencesType", mkType [] [("resourceReference", "resourceReferenceType")] false);
   ("resourceReferenceType", mkType [] [("ref", ""); ("externalReference", "externalReference")] false);
   ("tasksType", mkType [] [("task", "taskType")] false);
   ("taskType", mkType ["bom-ref"] [("uid", ""); ("name", ""); ("description", ""); ("resourceReferences", "resourceReferencesType"); ("taskTypes", "taskType/taskTypes"); ("trigger", "triggerType"); ("steps", "taskType/steps"); ("inputs", "taskType/inputs"); ("outputs", "taskType/outputs"); ("timeStart", ""); ("timeEnd", ""); ("workspaces", "workspacesType"); ("runtimeTopology", "dependenciesType"); ("properties", "propertiesType")] false);
   ("taskType/taskTypes", mkType [] [("taskType", "")] false);
   ("triggerType", mkType ["bom-ref"] [("uid", ""); ("name", ""); ("description", ""); ("resourceReferences", "resourceReferencesType"); ("type", ""); ("event", "eventType"); ("conditions", "triggerType/conditions"); ("timeActivated", ""); ("inputs", "triggerType/inputs"); ("outputs", "triggerType/outputs"); ("properties", "propertiesType")] false);
   ("eventType", mkType [] [("uid", ""); ("description", ""); ("timeReceived", ""); ("data", "attachedTextType"); ("source", "resourceReferenceType"); ("target", "resourceReferenceType"); ("properties", "propertiesType")] false);
   ("triggerType/conditions", mkType [] [("condition", "triggerType/conditions/condition")] false);
   ("triggerType/conditions/condition", mkType [] [("description", ""); ("expression", ""); ("properties", "propertiesType")] false);
   ("triggerType/inputs", mkType [] [("input", "inputType")] false);
   ("inputType", mkType [] [("resource", "resourceReferenceType"); ("parameters", "parametersType"); ("environmentVars", "inputType/environmentVars"); ("data", "attachedTextType"); ("source", "resourceReferenceType"); ("target", "resourceReferenceType"); ("properties", "propertiesType")] false);
   ("parametersType", mkType [] [("parameter", "parameterType")] false);
   ("parameterType", mkType [] [("name", ""); ("value", ""); ("dataType", "")] false);
   ("inputType/environmentVars", mkType [] [("environmentVar", "propertyType"); ("value", "")] false);
   ("triggerType/outputs", mkType [] [("output", "outputType")] false);
   ("outputType", mkType [] [("resource", "resourceReferenceType"); ("environmentVars", "outputType/environmentVars"); ("data", "attachedTextType"); ("type", ""); ("source", "resourceReferenceType"); ("target", "resourceReferenceType"); ("properties", "propertiesType")] false);
   ("outputType/environmentVars", mkType [] [("environmentVar", "propertyType"); ("value", "")] false);
   ("taskType/steps", mkType [] [("step", "stepType")] false);
   ("stepType", mkType [] [("name", ""); ("description", ""); ("commands", "stepType/commands"); ("properties", "propertiesType")] false);
   ("stepType/commands", mkType [] [("command", "stepType/commands/command")] false);
   ("stepType/commands/command", mkType [] [("executed", ""); ("properties", "propertiesType")] false);
   ("taskType/inputs", mkType [] [("input", "inputType")] false);
   ("taskType/outputs", mkType [] [("output", "outputType")] false);
   ("workspacesType", mkType [] [("workspace", "workspaceType")] false);
   ("workspaceType", mkType ["bom-ref"] [("uid", ""); ("name", ""); ("aliases", "workspaceType/aliases"); ("description", ""); ("resourceReferences", "resourceReferencesType"); ("accessMode", ""); ("mountPath", ""); ("managedDataType", ""); ("volumeRequest", ""); ("volume", "volumeType"); ("properties", "propertiesType")] false);
   ("workspaceType/aliases", mkType [] [("alias", "")] false);
   ("volumeType", mkType [] [("uid", ""); ("name", ""); ("mode", ""); ("path", ""); ("sizeAllocated", ""); ("persistent", ""); ("remote", ""); ("properties", "propertiesType")] false);
   ("workflowType/taskTypes", mkType [] [("taskType", "")] false);
   ("workflowType/steps", mkType [] [("step", "stepType")] false);
   ("workflowType/inputs", mkType [] [("input", "inputType")] false);
   ("workflowType/outputs", mkType [] [("output", "outputType")] false);
   ("declarationsType", mkType [] [("assessors", "declarationsType/assessors"); ("attestations", "declarationsType/attestations"); ("claims", "declarationsType/claims"); ("evidence", "declarationsType/evidence"); ("targets", "declarationsType/targets"); ("affirmation", "declarationsType/affirmation")] false);
   ("declarationsType/assessors", mkType [] [("assessor", "declarationsType/assessors/assessor")] false);
   ("declarationsType/assessors/assessor", mkType ["bom-ref"] [("thirdParty", ""); ("organization", "organizationalEntity")] false);
   ("declarationsType/attestations", mkType [] [("attestation", "declarationsType/attestations/attestation")] false);
   ("declarationsType/attestations/attestation", mkType [] [("summary", ""); ("assessor", ""); ("map", "declarationsType/attestations/attestation/map")] false);
   ("declarationsType/attestations/attestation/map", mkType [] [("requirement", ""); ("claims", "declarationsType/attestations/attestation/map/claims"); ("counterClaims", "declarationsType/attestations/attestation/map/counterClaims"); ("conformance", "declarationsType/attestations/attestation/map/conformance"); ("confidence", "declarationsType/attestations/attestation/map/confidence")] false);
   ("declarationsType/attestations/attestation/map/claims", mkType [] [("claim", "")] false);
   ("declarationsType/attestations/attestation/map/counterClaims", mkType [] [("counterClaim", "")] false);
   ("declarationsType/attestations/attestation/map/conformance", mkType [] [("score", ""); ("rationale", ""); ("mitigationStrategies", "declarationsType/attestations/attestation/map/conformance/mitigationStrategies")] false);
   ("declarationsType/attestations/attestation/map/conformance/mitigationStrategies", mkType [] [("mitigationStrategy", "")] false);
   ("declarationsType/attestations/attestation/map/confidence", mkType [] [("score", ""); ("rationale", "")] false);
   ("declarationsType/claims", mkType [] [("claim", "declarationsType/claims/claim")] false);
   ("declarationsType/claims/claim", mkType ["bom-ref"] [("target", ""); ("predicate", ""); ("mitigationStrategies", "declarationsType/claims/claim/mitigationStrategies"); ("reasoning", ""); ("evidence", ""); ("counterEvidence", ""); ("externalReferences", "externalReferences")] false);
   ("declarationsType/claims/claim/mitigationStrategies", mkType [] [("mitigationStrategy", "")] false);
   ("declarationsType/evidence", mkType [] [("evidence", "declarationsType/evidence/evidence")] false);
   ("declarationsType/evidence/evidence", mkType ["bom-ref"] [("propertyName", ""); ("description", ""); ("data", "declarationsType/evidence/evidence/data"); ("created", ""); ("expires", ""); ("author", "organizationalContact"); ("reviewer", "organizationalContact")] false);
   ("declarationsType/evidence/evidence/data", mkType [] [("name", ""); ("contents", "declarationsType/evidence/evidence/data/contents"); ("classification", ""); ("sensitiveData", ""); ("governance", "dataGovernance")] false);
   ("declarationsType/evidence/evidence/data/contents", mkType [] [("attachment", "attachedTextType"); ("url", "")] false);
   ("declarationsType/targets", mkType [] [("organizations", "declarationsType/targets/organizations"); ("components", "declarationsType/targets/components"); ("services", "declarationsType/targets/services")] false);
   ("declarationsType/targets/organizations", mkType [] [("organization", "organizationalEntity")] false);
   ("declarationsType/targets/components", mkType [] [("component", "component")] false);
   ("declarationsType/targets/services", mkType [] [("service", "service")] false);
   ("declarationsType/affirmation", mkType [] [("statement", ""); ("signatories", "declarationsType/affirmation/signatories")] false);
   ("declarationsType/affirmation/signatories", mkType [] [("signatory", "declarationsType/affirmation/signatories/signatory")] false);
   ("declarationsType/affirmation/signatories/signatory", mkType [] [("name", ""); ("role", ""); ("organization", "organizationalEntity"); ("externalReference", "externalReference")] false);
   ("definitionsType", mkType [] [("standards", "standardsType"); ("patents", "definitionsType/patents")] false);
   ("standardsType", mkType [] [("standard", "standard")] false);
   ("standard", mkType ["bom-ref"] [("name", ""); ("version", ""); ("description", ""); ("owner", ""); ("requirements", "standard/requirements"); ("levels", "standard/levels"); ("externalReferences", "externalReferences")] false);
   ("standard/requirements", mkType [] [("requirement", "standard/requirements/requirement")] false);
   ("standard/requirements/requirement", mkType ["bom-ref"] [("identifier", ""); ("title", ""); ("text", ""); ("descriptions", "standard/requirements/requirement/descriptions"); ("openCre", ""); ("parent", ""); ("properties", "propertiesType"); ("externalReferences", "externalReferences")] false);
   ("standard/requirements/requirement/descriptions", mkType [] [("description", "")] false);
   ("standard/levels", mkType [] [("level", "standard/levels/level")] false);
   ("standard/levels/level", mkType ["bom-ref"] [("identifier", ""); ("title", ""); ("description", ""); ("requirements", "standard/levels/level/requirements")] false);
   ("standard/levels/level/requirements", mkType [] [("requirement", "")] false);
   ("definitionsType/patents", mkType [] [("patent", "patentType"); ("patentFamily", "patentFamilyType")] false);
   ("patentType", mkType ["bom-ref"] [("patentNumber", ""); ("applicationNumber", ""); ("jurisdiction", ""); ("priorityApplication", "priorityApplicationType"); ("publicationNumber", ""); ("title", ""); ("abstract", ""); ("filingDate", ""); ("grantDate", ""); ("patentExpirationDate", ""); ("patentLegalStatus", ""); ("patentAssignee", "organizationOrIndividualType"); ("externalReferences", "externalReferences")] false);
   ("priorityApplicationType", mkType [] [("applicationNumber", ""); ("jurisdiction", ""); ("filingDate", "")] false);
   ("patentFamilyType", mkType ["bom-ref"] [("familyId", ""); ("priorityApplication", "priorityApplicationType"); ("members", "patentFamilyType/members"); ("externalReferences", "externalReferences")] false);
   ("patentFamilyType/members", mkType [] [("ref", "")] false);
   ("citationsType", mkType [] [("citation", "citationType")] false);
   ("citationType", mkType ["bom-ref"] [("pointers", "citationType/pointers"); ("expressions", "citationType/expressions"); ("timestamp", ""); ("attributedTo", ""); ("process", ""); ("note", "")] false);
   ("citationType/pointers", mkType [] [("pointer", "")] false);
   ("citationType/expressions", mkType [] [("expression", "")] false)].
