(** Generated by tools/gen_xsd.py --order from /repo/schema/bom-1.7.xsd: for every type of
    elements the ranks of the elements within it. An element with a lower rank comes before
    one with a higher rank. Within a choice, the alternatives begin at the same rank; what may
    be repeated as a whole has one rank. *)
From Verif Require Import Base OrderSpec.
Local Open Scope string_scope.

Definition order_1_7 : orders :=
  [("", []);
   ("bom", [("metadata", 0); ("components", 1); ("services", 2); ("externalReferences", 3); ("dependencies", 4); ("compositions", 5); ("properties", 6); ("vulnerabilities", 7); ("annotations", 8); ("formulation", 9); ("declarations", 10); ("definitions", 11); ("citations", 12)]);
   ("metadata", [("timestamp", 0); ("lifecycles", 1); ("tools", 2); ("authors", 3); ("component", 4); ("manufacturer", 5); ("manufacture", 6); ("supplier", 7); ("licenses", 8); ("properties", 9); ("distributionConstraints", 10)]);
   ("metadata/lifecycles", [("lifecycle", 0)]);
   ("metadata/lifecycles/lifecycle", [("phase", 0); ("name", 0); ("description", 1)]);
   ("metadata/tools", [("tool", 0); ("components", 0); ("services", 1)]);
   ("toolType", [("vendor", 0); ("name", 1); ("version", 2); ("hashes", 3); ("externalReferences", 4)]);
   ("toolType/hashes", [("hash", 0)]);
   ("hashType", []);
   ("externalReferences", [("reference", 0)]);
   ("externalReference", [("url", 0); ("comment", 1); ("hashes", 2); ("properties", 3)]);
   ("externalReference/hashes", [("hash", 0)]);
   ("propertiesType", [("property", 0)]);
   ("propertyType", []);
   ("componentsType", [("component", 0)]);
   ("component", [("supplier", 0); ("manufacturer", 1); ("authors", 2); ("author", 3); ("publisher", 4); ("group", 5); ("name", 6); ("version", 7); ("versionRange", 7); ("description", 8); ("scope", 9); ("hashes", 10); ("licenses", 11); ("copyright", 12); ("patentAssertions", 13); ("cpe", 14); ("purl", 15); ("omniborId", 16); ("swhid", 17); ("swid", 18); ("modified", 19); ("pedigree", 20); ("externalReferences", 21); ("properties", 22); ("components", 23); ("evidence", 24); ("releaseNotes", 25); ("modelCard", 26); ("data", 27); ("cryptoProperties", 28); ("tags", 29)]);
   ("organizationalEntity", [("name", 0); ("address", 1); ("url", 2); ("contact", 3)]);
   ("postalAddressType", [("country", 0); ("region", 1); ("locality", 2); ("postOfficeBoxNumber", 3); ("postalCode", 4); ("streetAddress", 5)]);
   ("organizationalContact", [("name", 0); ("email", 1); ("phone", 2)]);
   ("component/authors", [("author", 0)]);
   ("component/hashes", [("hash", 0)]);
   ("licenseChoiceType", [("license", 0); ("expression", 0); ("expression-detailed", 0)]);
   ("licenseType", [("id", 0); ("name", 0); ("text", 1); ("url", 2); ("licensing", 3); ("properties", 4)]);
   ("attachedTextType", []);
   ("licensingType", [("altIds", 0); ("licensor", 1); ("licensee", 2); ("purchaser", 3); ("purchaseOrder", 4); ("licenseTypes", 5); ("lastRenewal", 6); ("expiration", 7)]);
   ("licensingType/altIds", [("altId", 0)]);
   ("licensingType/licensor", [("organization", 0); ("individual", 0)]);
   ("licensingType/licensee", [("organization", 0); ("individual", 0)]);
   ("licensingType/purchaser", [("organization", 0); ("individual", 0)]);
   ("licensingType/licenseTypes", [("licenseType", 0)]);
   ("licenseExpressionType", []);
   ("licenseExpressionDetailedType", [("details", 0); ("licensing", 1); ("properties", 2)]);
   ("licenseExpressionDetailedType/details", [("text", 0); ("url", 1)]);
   ("component/patentAssertions", [("patentAssertion", 0)]);
   ("patentAssertionType", [("assertionType", 0); ("patentRefs", 1); ("asserter", 2); ("notes", 3)]);
   ("patentAssertionType/patentRefs", [("bom-ref", 0)]);
   ("patentAssertionType/asserter", [("organization", 0); ("contact", 0); ("ref", 0)]);
   ("swidType", [("text", 0); ("url", 1)]);
   ("pedigreeType", [("ancestors", 0); ("descendants", 1); ("variants", 2); ("commits", 3); ("patches", 4); ("notes", 5)]);
   ("commitsType", [("commit", 0)]);
   ("commitType", [("uid", 0); ("url", 1); ("author", 2); ("committer", 3); ("message", 4)]);
   ("identifiableActionType", [("timestamp", 0); ("name", 1); ("email", 2)]);
   ("patchesType", [("patch", 0)]);
   ("patchType", [("diff", 0); ("resolves", 1)]);
   ("diffType", [("text", 0); ("url", 1)]);
   ("patchType/resolves", [("issue", 0)]);
   ("issueType", [("id", 0); ("name", 1); ("description", 2); ("source", 3); ("references", 4)]);
   ("issueType/source", [("name", 0); ("url", 1)]);
   ("issueType/references", [("url", 0)]);
   ("component/components", [("component", 0)]);
   ("componentEvidenceType", [("identity", 0); ("occurrences", 1); ("callstack", 2); ("licenses", 3); ("copyright", 4)]);
   ("componentEvidenceType/identity", [("field", 0); ("confidence", 1); ("concludedValue", 2); ("methods", 3); ("tools", 4)]);
   ("componentEvidenceType/identity/methods", [("method", 0)]);
   ("componentEvidenceType/identity/methods/method", [("technique", 0); ("confidence", 1); ("value", 2)]);
   ("componentEvidenceType/identity/tools", [("tool", 0)]);
   ("bomReferenceType", []);
   ("componentEvidenceType/occurrences", [("occurrence", 0)]);
   ("componentEvidenceType/occurrences/occurrence", [("location", 0); ("line", 1); ("offset", 2); ("symbol", 3); ("additionalContext", 4)]);
   ("componentEvidenceType/callstack", [("frames", 0); ("tools", 1)]);
   ("componentEvidenceType/callstack/frames", [("frame", 0)]);
   ("componentEvidenceType/callstack/frames/frame", [("package", 0); ("module", 1); ("function", 2); ("parameters", 3); ("line", 4); ("column", 5); ("fullFilename", 6)]);
   ("componentEvidenceType/callstack/frames/frame/parameters", [("parameter", 0)]);
   ("componentEvidenceType/callstack/tools", [("tool", 0)]);
   ("copyrightsType", [("text", 0)]);
   ("releaseNotesType", [("type", 0); ("title", 0); ("featuredImage", 0); ("socialImage", 0); ("description", 0); ("timestamp", 0); ("aliases", 0); ("tags", 0); ("resolves", 0); ("notes", 0); ("properties", 0)]);
   ("releaseNotesType/aliases", [("alias", 0)]);
   ("tagsType", [("tag", 0)]);
   ("releaseNotesType/resolves", [("issue", 0)]);
   ("releaseNotesType/notes", [("note", 0)]);
   ("releaseNotesType/notes/note", [("locale", 0); ("text", 0)]);
   ("modelCardType", [("modelParameters", 0); ("quantitativeAnalysis", 1); ("considerations", 2)]);
   ("modelCardType/modelParameters", [("approach", 0); ("task", 1); ("architectureFamily", 2); ("modelArchitecture", 3); ("datasets", 4); ("inputs", 5); ("outputs", 6)]);
   ("modelCardType/modelParameters/approach", [("type", 0)]);
   ("modelCardType/modelParameters/datasets", [("ref", 0); ("dataset", 0)]);
   ("componentDataType", [("type", 0); ("name", 1); ("contents", 2); ("classification", 3); ("sensitiveData", 4); ("graphics", 5); ("description", 6); ("governance", 7)]);
   ("componentDataType/contents", [("attachment", 0); ("url", 1); ("properties", 2)]);
   ("graphicsCollectionType", [("description", 0); ("collection", 1)]);
   ("graphicsCollectionType/collection", [("graphic", 0)]);
   ("graphicsCollectionType/collection/graphic", [("name", 0); ("image", 1)]);
   ("dataGovernance", [("custodians", 0); ("stewards", 1); ("owners", 2)]);
   ("dataGovernance/custodians", [("custodian", 0)]);
   ("organizationOrIndividualType", [("organization", 0); ("individual", 0)]);
   ("dataGovernance/stewards", [("steward", 0)]);
   ("dataGovernance/owners", [("owner", 0)]);
   ("modelCardType/modelParameters/inputs", [("input", 0)]);
   ("modelCardType/modelParameters/inputs/input", [("format", 0)]);
   ("modelCardType/modelParameters/outputs", [("output", 0)]);
   ("modelCardType/modelParameters/outputs/output", [("format", 0)]);
   ("modelCardType/quantitativeAnalysis", [("performanceMetrics", 0); ("graphics", 1)]);
   ("modelCardType/quantitativeAnalysis/performanceMetrics", [("performanceMetric", 0)]);
   ("modelCardType/quantitativeAnalysis/performanceMetrics/performanceMetric", [("type", 0); ("value", 1); ("slice", 2); ("confidenceInterval", 3)]);
   ("modelCardType/quantitativeAnalysis/performanceMetrics/performanceMetric/confidenceInterval", [("lowerBound", 0); ("upperBound", 1)]);
   ("modelCardType/quantitativeAnalysis/graphics", [("description", 0); ("collection", 1)]);
   ("modelCardType/quantitativeAnalysis/graphics/collection", [("graphic", 0)]);
   ("modelCardType/quantitativeAnalysis/graphics/collection/graphic", [("name", 0); ("image", 1)]);
   ("modelCardType/considerations", [("users", 0); ("useCases", 1); ("technicalLimitations", 2); ("performanceTradeoffs", 3); ("ethicalConsiderations", 4); ("environmentalConsiderations", 5); ("fairnessAssessments", 6)]);
   ("modelCardType/considerations/users", [("user", 0)]);
   ("modelCardType/considerations/useCases", [("useCase", 0)]);
   ("modelCardType/considerations/technicalLimitations", [("technicalLimitation", 0)]);
   ("modelCardType/considerations/performanceTradeoffs", [("performanceTradeoff", 0)]);
   ("modelCardType/considerations/ethicalConsiderations", [("ethicalConsideration", 0)]);
   ("modelCardType/considerations/ethicalConsiderations/ethicalConsideration", [("name", 0); ("mitigationStrategy", 1)]);
   ("environmentalConsiderationsType", [("energyConsumptions", 0); ("properties", 1)]);
   ("energyConsumptionsType", [("energyConsumption", 0)]);
   ("energyConsumptionType", [("activity", 0); ("energyProviders", 1); ("activityEnergyCost", 2); ("co2CostEquivalent", 3); ("co2CostOffset", 4); ("properties", 5)]);
   ("energyProviderType", [("description", 0); ("organization", 1); ("energySource", 2); ("energyProvided", 3); ("externalReferences", 4)]);
   ("energyMeasureType", [("value", 0); ("unit", 1)]);
   ("co2MeasureType", [("value", 0); ("unit", 1)]);
   ("modelCardType/considerations/fairnessAssessments", [("fairnessAssessment", 0)]);
   ("modelCardType/considerations/fairnessAssessments/fairnessAssessment", [("groupAtRisk", 0); ("benefits", 1); ("harms", 2); ("mitigationStrategy", 3)]);
   ("cryptoPropertiesType", [("assetType", 0); ("algorithmProperties", 1); ("certificateProperties", 2); ("relatedCryptoMaterialProperties", 3); ("protocolProperties", 4); ("oid", 5)]);
   ("cryptoPropertiesType/algorithmProperties", [("primitive", 0); ("algorithmFamily", 1); ("parameterSetIdentifier", 2); ("curve", 3); ("ellipticCurve", 4); ("executionEnvironment", 5); ("implementationPlatform", 6); ("certificationLevel", 7); ("mode", 8); ("padding", 9); ("cryptoFunctions", 10); ("classicalSecurityLevel", 11); ("nistQuantumSecurityLevel", 12)]);
   ("cryptoPropertiesType/algorithmProperties/cryptoFunctions", [("cryptoFunction", 0)]);
   ("cryptoPropertiesType/certificateProperties", [("serialNumber", 0); ("subjectName", 1); ("issuerName", 2); ("notValidBefore", 3); ("notValidAfter", 4); ("signatureAlgorithmRef", 5); ("subjectPublicKeyRef", 6); ("certificateFormat", 7); ("certificateExtension", 8); ("certificateFileExtension", 9); ("fingerprint", 10); ("certificateState", 11); ("creationDate", 12); ("activationDate", 13); ("deactivationDate", 14); ("revocationDate", 15); ("destructionDate", 16); ("certificateExtensions", 17); ("relatedCryptographicAssets", 18)]);
   ("cryptoPropertiesType/certificateProperties/certificateState", [("state", 0); ("reason", 0); ("name", 0); ("description", 0)]);
   ("cryptoPropertiesType/certificateProperties/certificateExtensions", [("certificateExtension", 0)]);
   ("cryptoPropertiesType/certificateProperties/certificateExtensions/certificateExtension", [("commonExtensionName", 0); ("commonExtensionValue", 1); ("customExtensionName", 0); ("customExtensionValue", 1)]);
   ("cryptoPropertiesType/certificateProperties/relatedCryptographicAssets", [("relatedCryptographicAsset", 0)]);
   ("cryptoPropertiesType/certificateProperties/relatedCryptographicAssets/relatedCryptographicAsset", [("type", 0); ("ref", 1)]);
   ("cryptoPropertiesType/relatedCryptoMaterialProperties", [("type", 0); ("id", 1); ("state", 2); ("algorithmRef", 3); ("creationDate", 4); ("activationDate", 5); ("updateDate", 6); ("expirationDate", 7); ("value", 8); ("size", 9); ("format", 10); ("securedBy", 11); ("fingerprint", 12); ("relatedCryptographicAssets", 13)]);
   ("cryptoPropertiesType/relatedCryptoMaterialProperties/securedBy", [("mechanism", 0); ("algorithmRef", 1)]);
   ("cryptoPropertiesType/relatedCryptoMaterialProperties/relatedCryptographicAssets", [("relatedCryptographicAsset", 0)]);
   ("cryptoPropertiesType/relatedCryptoMaterialProperties/relatedCryptographicAssets/relatedCryptographicAsset", [("type", 0); ("ref", 1)]);
   ("cryptoPropertiesType/protocolProperties", [("type", 0); ("version", 1); ("cipherSuites", 2); ("ikev2TransformTypes", 3); ("cryptoRef", 4)]);
   ("cryptoPropertiesType/protocolProperties/cipherSuites", [("cipherSuite", 0)]);
   ("cryptoPropertiesType/protocolProperties/cipherSuites/cipherSuite", [("name", 0); ("algorithms", 1); ("identifiers", 2); ("tlsGroups", 3); ("tlsSignatureSchemes", 4)]);
   ("cryptoPropertiesType/protocolProperties/cipherSuites/cipherSuite/algorithms", [("algorithm", 0)]);
   ("cryptoPropertiesType/protocolProperties/cipherSuites/cipherSuite/identifiers", [("identifier", 0)]);
   ("cryptoPropertiesType/protocolProperties/cipherSuites/cipherSuite/tlsGroups", [("group", 0)]);
   ("cryptoPropertiesType/protocolProperties/cipherSuites/cipherSuite/tlsSignatureSchemes", [("signatureScheme", 0)]);
   ("cryptoPropertiesType/protocolProperties/ikev2TransformTypes", [("encr", 0); ("prf", 1); ("integ", 2); ("ke", 3); ("esn", 4); ("auth", 5)]);
   ("cryptoPropertiesType/protocolProperties/ikev2TransformTypes/encr", [("name", 0); ("keyLength", 1); ("algorithm", 2)]);
   ("cryptoPropertiesType/protocolProperties/ikev2TransformTypes/prf", [("name", 0); ("algorithm", 1)]);
   ("cryptoPropertiesType/protocolProperties/ikev2TransformTypes/integ", [("name", 0); ("algorithm", 1)]);
   ("cryptoPropertiesType/protocolProperties/ikev2TransformTypes/ke", [("group", 0); ("algorithm", 1)]);
   ("cryptoPropertiesType/protocolProperties/ikev2TransformTypes/auth", [("name", 0); ("algorithm", 1)]);
   ("servicesType", [("service", 0)]);
   ("service", [("provider", 0); ("group", 1); ("name", 2); ("version", 3); ("description", 4); ("endpoints", 5); ("authenticated", 6); ("x-trust-boundary", 7); ("trustZone", 8); ("data", 9); ("licenses", 10); ("patentAssertions", 11); ("externalReferences", 12); ("properties", 13); ("services", 14); ("releaseNotes", 15); ("tags", 16)]);
   ("service/endpoints", [("endpoint", 0)]);
   ("service/data", [("classification", 0); ("dataflow", 0)]);
   ("dataClassificationType", []);
   ("service/data/dataflow", [("classification", 0); ("governance", 1); ("source", 2); ("destination", 3)]);
   ("service/data/dataflow/source", [("url", 0)]);
   ("service/data/dataflow/destination", [("url", 0)]);
   ("service/patentAssertions", [("patentAssertion", 0)]);
   ("service/services", [("service", 0)]);
   ("metadata/authors", [("author", 0)]);
   ("metadata/distributionConstraints", [("tlp", 0)]);
   ("dependenciesType", [("dependency", 0)]);
   ("dependencyType", [("dependency", 0); ("provides", 0)]);
   ("dependencyType/provides", []);
   ("compositionsType", [("composition", 0)]);
   ("compositionType", [("aggregate", 0); ("assemblies", 0); ("dependencies", 0); ("vulnerabilities", 0)]);
   ("compositionType/assemblies", [("assembly", 0)]);
   ("compositionType/dependencies", [("dependency", 0)]);
   ("compositionType/vulnerabilities", [("vulnerability", 0)]);
   ("vulnerabilitiesType", [("vulnerability", 0)]);
   ("vulnerabilityType", [("id", 0); ("source", 1); ("references", 2); ("ratings", 3); ("cwes", 4); ("description", 5); ("detail", 6); ("recommendation", 7); ("workaround", 8); ("proofOfConcept", 9); ("advisories", 10); ("created", 11); ("published", 12); ("updated", 13); ("rejected", 14); ("credits", 15); ("tools", 16); ("analysis", 17); ("affects", 18); ("properties", 19)]);
   ("vulnerabilitySourceType", [("name", 0); ("url", 0)]);
   ("vulnerabilityType/references", [("reference", 0)]);
   ("vulnerabilityType/references/reference", [("id", 0); ("source", 1)]);
   ("vulnerabilityType/ratings", [("rating", 0)]);
   ("ratingType", [("source", 0); ("score", 1); ("severity", 2); ("method", 3); ("vector", 4); ("justification", 5)]);
   ("vulnerabilityType/cwes", [("cwe", 0)]);
   ("vulnerabilityType/proofOfConcept", [("reproductionSteps", 0); ("environment", 1); ("supportingMaterial", 2)]);
   ("vulnerabilityType/proofOfConcept/supportingMaterial", [("attachment", 0)]);
   ("vulnerabilityType/advisories", [("advisory", 0)]);
   ("advisoryType", [("title", 0); ("url", 1)]);
   ("vulnerabilityType/credits", [("organizations", 0); ("individuals", 1)]);
   ("vulnerabilityType/credits/organizations", [("organization", 0)]);
   ("vulnerabilityType/credits/individuals", [("individual", 0)]);
   ("vulnerabilityType/tools", [("tool", 0); ("components", 0); ("services", 1)]);
   ("vulnerabilityType/analysis", [("state", 0); ("justification", 1); ("responses", 2); ("detail", 3); ("firstIssued", 4); ("lastUpdated", 5)]);
   ("vulnerabilityType/analysis/responses", [("response", 0)]);
   ("vulnerabilityType/affects", [("target", 0)]);
   ("vulnerabilityType/affects/target", [("ref", 0); ("versions", 1)]);
   ("vulnerabilityType/affects/target/versions", [("version", 0)]);
   ("vulnerabilityType/affects/target/versions/version", [("version", 0); ("range", 0); ("status", 1)]);
   ("annotationsType", [("annotation", 0)]);
   ("annotationType", [("subjects", 0); ("annotator", 1); ("timestamp", 2); ("text", 3)]);
   ("annotationType/subjects", [("subject", 0)]);
   ("annotatorChoiceType", [("organization", 0); ("individual", 0); ("component", 0); ("service", 0)]);
   ("formulationType", [("formula", 0)]);
   ("formulaType", [("components", 0); ("services", 1); ("workflows", 2); ("properties", 3)]);
   ("workflowsType", [("workflow", 0)]);
   ("workflowType", [("uid", 0); ("name", 1); ("description", 2); ("resourceReferences", 3); ("tasks", 4); ("taskDependencies", 5); ("taskTypes", 6); ("trigger", 7); ("steps", 8); ("inputs", 9); ("outputs", 10); ("timeStart", 11); ("timeEnd", 12); ("workspaces", 13); ("runtimeTopology", 14); ("properties", 15)]);
   ("resourceReferencesType", [("resourceReference", 0)]);
   ("resourceReferenceType", [("ref", 0); ("externalReference", 0)]);
   ("tasksType", [("task", 0)]);
   ("taskType", [("uid", 0); ("name", 1); ("description", 2); ("resourceReferences", 3); ("taskTypes", 4); ("trigger", 5); ("steps", 6); ("inputs", 7); ("outputs", 8); ("timeStart", 9); ("timeEnd", 10); ("workspaces", 11); ("runtimeTopology", 12); ("properties", 13)]);
   ("taskType/taskTypes", [("taskType", 0)]);
   ("triggerType", [("uid", 0); ("name", 1); ("description", 2); ("resourceReferences", 3); ("type", 4); ("event", 5); ("conditions", 6); ("timeActivated", 7); ("inputs", 8); ("outputs", 9); ("properties", 10)]);
   ("eventType", [("uid", 0); ("description", 1); ("timeReceived", 2); ("data", 3); ("source", 4); ("target", 5); ("properties", 6)]);
   ("triggerType/conditions", [("condition", 0)]);
   ("triggerType/conditions/condition", [("description", 0); ("expression", 1); ("properties", 2)]);
   ("triggerType/inputs", [("input", 0)]);
   ("inputType", [("resource", 0); ("parameters", 0); ("environmentVars", 0); ("data", 0); ("source", 1); ("target", 2); ("properties", 3)]);
   ("parametersType", [("parameter", 0)]);
   ("parameterType", [("name", 0); ("value", 1); ("dataType", 2)]);
   ("inputType/environmentVars", [("environmentVar", 0); ("value", 0)]);
   ("triggerType/outputs", [("output", 0)]);
   ("outputType", [("resource", 0); ("environmentVars", 0); ("data", 0); ("type", 1); ("source", 2); ("target", 3); ("properties", 4)]);
   ("outputType/environmentVars", [("environmentVar", 0); ("value", 0)]);
   ("taskType/steps", [("step", 0)]);
   ("stepType", [("name", 0); ("description", 1); ("commands", 2); ("properties", 3)]);
   ("stepType/commands", [("command", 0)]);
   ("stepType/commands/command", [("executed", 0); ("properties", 1)]);
   ("taskType/inputs", [("input", 0)]);
   ("taskType/outputs", [("output", 0)]);
   ("workspacesType", [("workspace", 0)]);
   ("workspaceType", [("uid", 0); ("name", 0); ("aliases", 0); ("description", 0); ("resourceReferences", 0); ("accessMode", 0); ("mountPath", 0); ("managedDataType", 0); ("volumeRequest", 0); ("volume", 0); ("properties", 0)]);
   ("workspaceType/aliases", [("alias", 0)]);
   ("volumeType", [("uid", 0); ("name", 1); ("mode", 2); ("path", 3); ("sizeAllocated", 4); ("persistent", 5); ("remote", 6); ("properties", 7)]);
   ("workflowType/taskTypes", [("taskType", 0)]);
   ("workflowType/steps", [("step", 0)]);
   ("workflowType/inputs", [("input", 0)]);
   ("workflowType/outputs", [("output", 0)]);
   ("declarationsType", [("assessors", 0); ("attestations", 1); ("claims", 2); ("evidence", 3); ("targets", 4); ("affirmation", 5)]);
   ("declarationsType/assessors", [("assessor", 0)]);
   ("declarationsType/assessors/assessor", [("thirdParty", 0); ("organization", 1)]);
   ("declarationsType/attestations", [("attestation", 0)]);
   ("declarationsType/attestations/attestation", [("summary", 0); ("assessor", 1); ("map", 2)]);
   ("declarationsType/attestations/attestation/map", [("requirement", 0); ("claims", 1); ("counterClaims", 2); ("conformance", 3); ("confidence", 4)]);
   ("declarationsType/attestations/attestation/map/claims", [("claim", 0)]);
   ("declarationsType/attestations/attestation/map/counterClaims", [("counterClaim", 0)]);
   ("declarationsType/attestations/attestation/map/conformance", [("score", 0); ("rationale", 1); ("mitigationStrategies", 2)]);
   ("declarationsType/attestations/attestation/map/conformance/mitigationStrategies", [("mitigationStrategy", 0)]);
   ("declarationsType/attestations/attestation/map/confidence", [("score", 0); ("rationale", 1)]);
   ("declarationsType/claims", [("claim", 0)]);
   ("declarationsType/claims/claim", [("target", 0); ("predicate", 1); ("mitigationStrategies", 2); ("reasoning", 3); ("evidence", 4); ("counterEvidence", 5); ("externalReferences", 6)]);
   ("declarationsType/claims/claim/mitigationStrategies", [("mitigationStrategy", 0)]);
   ("declarationsType/evidence", [("evidence", 0)]);
   ("declarationsType/evidence/evidence", [("propertyName", 0); ("description", 1); ("data", 2); ("created", 3); ("expires", 4); ("author", 5); ("reviewer", 6)]);
   ("declarationsType/evidence/evidence/data", [("name", 0); ("contents", 1); ("classification", 2); ("sensitiveData", 3); ("governance", 4)]);
   ("declarationsType/evidence/evidence/data/contents", [("attachment", 0); ("url", 1)]);
   ("declarationsType/targets", [("organizations", 0); ("components", 1); ("services", 2)]);
   ("declarationsType/targets/organizations", [("organization", 0)]);
   ("declarationsType/targets/components", [("component", 0)]);
   ("declarationsType/targets/services", [("service", 0)]);
   ("declarationsType/affirmation", [("statement", 0); ("signatories", 1)]);
   ("declarationsType/affirmation/signatories", [("signatory", 0)]);
   ("declarationsType/affirmation/signatories/signatory", [("name", 0); ("role", 1); ("organization", 2); ("externalReference", 3)]);
   ("definitionsType", [("standards", 0); ("patents", 1)]);
   ("standardsType", [("standard", 0)]);
   ("standard", [("name", 0); ("version", 1); ("description", 2); ("owner", 3); ("requirements", 4); ("levels", 5); ("externalReferences", 6)]);
   ("standard/requirements", [("requirement", 0)]);
   ("standard/requirements/requirement", [("identifier", 0); ("title", 1); ("text", 2); ("descriptions", 3); ("openCre", 4); ("parent", 5); ("properties", 6); ("externalReferences", 7)]);
   ("standard/requirements/requirement/descriptions", [("description", 0)]);
   ("standard/levels", [("level", 0)]);
   ("standard/levels/level", [("identifier", 0); ("title", 1); ("description", 2); ("requirements", 3)]);
   ("standard/levels/level/requirements", [("requirement", 0)]);
   ("definitionsType/patents", [("patent", 0); ("patentFamily", 0)]);
   ("patentType", [("patentNumber", 0); ("applicationNumber", 1); ("jurisdiction", 2); ("priorityApplication", 3); ("publicationNumber", 4); ("title", 5); ("abstract", 6); ("filingDate", 7); ("grantDate", 8); ("patentExpirationDate", 9); ("patentLegalStatus", 10); ("patentAssignee", 11); ("externalReferences", 12)]);
   ("priorityApplicationType", [("applicationNumber", 0); ("jurisdiction", 1); ("filingDate", 2)]);
   ("patentFamilyType", [("familyId", 0); ("priorityApplication", 1); ("members", 2); ("externalReferences", 3)]);
   ("patentFamilyType/members", [("ref", 0)]);
   ("citationsType", [("citation", 0)]);
   ("citationType", [("pointers", 0); ("expressions", 0); ("timestamp", 1); ("attributedTo", 2); ("process", 3); ("note", 4)]);
   ("citationType/pointers", [("pointer", 0)]);
   ("citationType/expressions", [("expression", 0)])].

(** The elements of which there may be at most one *)
Definition limits_1_7 : limits :=
  [("", []);
   ("bom", ["metadata"; "components"; "services"; "externalReferences"; "dependencies"; "compositions"; "properties"; "vulnerabilities"; "annotations"; "formulation"; "declarations"; "definitions"; "citations"]);
   ("metadata", ["timestamp"; "lifecycles"; "tools"; "authors"; "component"; "manufacturer"; "manufacture"; "supplier"; "licenses"; "properties"; "distributionConstraints"]);
   ("metadata/lifecycles", []);
   ("metadata/lifecycles/lifecycle", ["phase"; "name"; "description"]);
   ("metadata/tools", ["components"; "services"]);
   ("toolType", ["vendor"; "name"; "version"; "hashes"; "externalReferences"]);
   ("toolType/hashes", []);
   ("hashType", []);
   ("externalReferences", []);
   ("externalReference", ["url"; "comment"; "hashes"; "properties"]);
   ("externalReference/hashes", []);
   ("propertiesType", []);
   ("propertyType", []);
   ("componentsType", []);
   ("component", ["supplier"; "manufacturer"; "authors"; "author"; "publisher"; "group"; "name"; "version"; "versionRange"; "description"; "scope"; "hashes"; "licenses"; "copyright"; "patentAssertions"; "cpe"; "purl"; "swid"; "modified"; "pedigree"; "externalReferences"; "properties"; "components"; "evidence"; "releaseNotes"; "modelCard"; "cryptoProperties"; "tags"]);
   ("organizationalEntity", ["name"; "address"]);
   ("postalAddressType", ["country"; "region"; "locality"; "postOfficeBoxNumber"; "postalCode"; "streetAddress"]);
   ("organizationalContact", ["name"; "email"; "phone"]);
   ("component/authors", []);
   ("component/hashes", []);
   ("licenseChoiceType", []);
   ("licenseType", ["id"; "name"; "text"; "url"; "licensing"; "properties"]);
   ("attachedTextType", []);
   ("licensingType", ["altIds"; "licensor"; "licensee"; "purchaser"; "purchaseOrder"; "licenseTypes"; "lastRenewal"; "expiration"]);
   ("licensingType/altIds", []);
   ("licensingType/licensor", ["organization"; "individual"]);
   ("licensingType/licensee", ["organization"; "individual"]);
   ("licensingType/purchaser", ["organization"; "individual"]);
   ("licensingType/licenseTypes", []);
   ("licenseExpressionType", []);
   ("licenseExpressionDetailedType", ["licensing"; "properties"]);
   ("licenseExpressionDetailedType/details", ["text"; "url"]);
   ("component/patentAssertions", []);
   ("patentAssertionType", ["assertionType"; "patentRefs"; "asserter"; "notes"]);
   ("patentAssertionType/patentRefs", []);
   ("patentAssertionType/asserter", ["organization"; "contact"; "ref"]);
   ("swidType", ["text"; "url"]);
   ("pedigreeType", ["ancestors"; "descendants"; "variants"; "commits"; "patches"; "notes"]);
   ("commitsType", []);
   ("commitType", ["uid"; "url"; "author"; "committer"; "message"]);
   ("identifiableActionType", ["timestamp"; "name"; "email"]);
   ("patchesType", []);
   ("patchType", ["diff"; "resolves"]);
   ("diffType", ["text"; "url"]);
   ("patchType/resolves", []);
   ("issueType", ["id"; "name"; "description"; "source"; "references"]);
   ("issueType/source", ["name"; "url"]);
   ("issueType/references", []);
   ("component/components", []);
   ("componentEvidenceType", ["occurrences"; "callstack"; "licenses"; "copyright"]);
   ("componentEvidenceType/identity", ["field"; "confidence"; "concludedValue"; "methods"; "tools"]);
   ("componentEvidenceType/identity/methods", []);
   ("componentEvidenceType/identity/methods/method", ["technique"; "confidence"; "value"]);
   ("componentEvidenceType/identity/tools", []);
   ("bomReferenceType", []);
   ("componentEvidenceType/occurrences", []);
   ("componentEvidenceType/occurrences/occurrence", ["location"; "line"; "offset"; "symbol"; "additionalContext"]);
   ("componentEvidenceType/callstack", ["frames"; "tools"]);
   ("componentEvidenceType/callstack/frames", []);
   ("componentEvidenceType/callstack/frames/frame", ["package"; "module"; "function"; "parameters"; "line"; "column"; "fullFilename"]);
   ("componentEvidenceType/callstack/frames/frame/parameters", []);
   ("componentEvidenceType/callstack/tools", []);
   ("copyrightsType", []);
   ("releaseNotesType", []);
   ("releaseNotesType/aliases", []);
   ("tagsType", []);
   ("releaseNotesType/resolves", []);
   ("releaseNotesType/notes", []);
   ("releaseNotesType/notes/note", []);
   ("modelCardType", ["modelParameters"; "quantitativeAnalysis"; "considerations"]);
   ("modelCardType/modelParameters", ["approach"; "task"; "architectureFamily"; "modelArchitecture"; "datasets"; "inputs"; "outputs"]);
   ("modelCardType/modelParameters/approach", ["type"]);
   ("modelCardType/modelParameters/datasets", []);
   ("componentDataType", ["type"; "name"; "contents"; "classification"; "graphics"; "description"; "governance"]);
   ("componentDataType/contents", ["attachment"; "url"; "properties"]);
   ("graphicsCollectionType", ["description"; "collection"]);
   ("graphicsCollectionType/collection", []);
   ("graphicsCollectionType/collection/graphic", ["name"; "image"]);
   ("dataGovernance", ["custodians"; "stewards"; "owners"]);
   ("dataGovernance/custodians", []);
   ("organizationOrIndividualType", ["organization"; "individual"]);
   ("dataGovernance/stewards", []);
   ("dataGovernance/owners", []);
   ("modelCardType/modelParameters/inputs", []);
   ("modelCardType/modelParameters/inputs/input", ["format"]);
   ("modelCardType/modelParameters/outputs", []);
   ("modelCardType/modelParameters/outputs/output", ["format"]);
   ("modelCardType/quantitativeAnalysis", ["performanceMetrics"; "graphics"]);
   ("modelCardType/quantitativeAnalysis/performanceMetrics", []);
   ("modelCardType/quantitativeAnalysis/performanceMetrics/performanceMetric", ["type"; "value"; "slice"; "confidenceInterval"]);
   ("modelCardType/quantitativeAnalysis/performanceMetrics/performanceMetric/confidenceInterval", ["lowerBound"; "upperBound"]);
   ("modelCardType/quantitativeAnalysis/graphics", ["description"; "collection"]);
   ("modelCardType/quantitativeAnalysis/graphics/collection", []);
   ("modelCardType/quantitativeAnalysis/graphics/collection/graphic", ["name"; "image"]);
   ("modelCardType/considerations", ["users"; "useCases"; "technicalLimitations"; "performanceTradeoffs"; "ethicalConsiderations"; "environmentalConsiderations"; "fairnessAssessments"]);
   ("modelCardType/considerations/users", ["user"]);
   ("modelCardType/considerations/useCases", ["useCase"]);
   ("modelCardType/considerations/technicalLimitations", ["technicalLimitation"]);
   ("modelCardType/considerations/performanceTradeoffs", ["performanceTradeoff"]);
   ("modelCardType/considerations/ethicalConsiderations", []);
   ("modelCardType/considerations/ethicalConsiderations/ethicalConsideration", ["name"; "mitigationStrategy"]);
   ("environmentalConsiderationsType", ["properties"]);
   ("energyConsumptionsType", []);
   ("energyConsumptionType", ["activity"; "activityEnergyCost"; "co2CostEquivalent"; "co2CostOffset"; "properties"]);
   ("energyProviderType", ["description"; "organization"; "energySource"; "energyProvided"; "externalReferences"]);
   ("energyMeasureType", ["value"; "unit"]);
   ("co2MeasureType", ["value"; "unit"]);
   ("modelCardType/considerations/fairnessAssessments", []);
   ("modelCardType/considerations/fairnessAssessments/fairnessAssessment", ["groupAtRisk"; "benefits"; "harms"; "mitigationStrategy"]);
   ("cryptoPropertiesType", ["assetType"; "algorithmProperties"; "certificateProperties"; "relatedCryptoMaterialProperties"; "protocolProperties"; "oid"]);
   ("cryptoPropertiesType/algorithmProperties", ["primitive"; "algorithmFamily"; "parameterSetIdentifier"; "curve"; "ellipticCurve"; "executionEnvironment"; "implementationPlatform"; "mode"; "padding"; "cryptoFunctions"; "classicalSecurityLevel"; "nistQuantumSecurityLevel"]);
   ("cryptoPropertiesType/algorithmProperties/cryptoFunctions", []);
   ("cryptoPropertiesType/certificateProperties", ["serialNumber"; "subjectName"; "issuerName"; "notValidBefore"; "notValidAfter"; "signatureAlgorithmRef"; "subjectPublicKeyRef"; "certificateFormat"; "certificateExtension"; "certificateFileExtension"; "fingerprint"; "creationDate"; "activationDate"; "deactivationDate"; "revocationDate"; "destructionDate"; "certificateExtensions"; "relatedCryptographicAssets"]);
   ("cryptoPropertiesType/certificateProperties/certificateState", ["state"; "reason"; "name"; "description"]);
   ("cryptoPropertiesType/certificateProperties/certificateExtensions", []);
   ("cryptoPropertiesType/certificateProperties/certificateExtensions/certificateExtension", ["commonExtensionName"; "commonExtensionValue"; "customExtensionName"; "customExtensionValue"]);
   ("cryptoPropertiesType/certificateProperties/relatedCryptographicAssets", []);
   ("cryptoPropertiesType/certificateProperties/relatedCryptographicAssets/relatedCryptographicAsset", ["type"; "ref"]);
   ("cryptoPropertiesType/relatedCryptoMaterialProperties", ["type"; "id"; "state"; "algorithmRef"; "creationDate"; "activationDate"; "updateDate"; "expirationDate"; "value"; "size"; "format"; "securedBy"; "fingerprint"; "relatedCryptographicAssets"]);
   ("cryptoPropertiesType/relatedCryptoMaterialProperties/securedBy", ["mechanism"; "algorithmRef"]);
   ("cryptoPropertiesType/relatedCryptoMaterialProperties/relatedCryptographicAssets", []);
   ("cryptoPropertiesType/relatedCryptoMaterialProperties/relatedCryptographicAssets/relatedCryptographicAsset", ["type"; "ref"]);
   ("cryptoPropertiesType/protocolProperties", ["type"; "version"; "cipherSuites"; "ikev2TransformTypes"]);
   ("cryptoPropertiesType/protocolProperties/cipherSuites", []);
   ("cryptoPropertiesType/protocolProperties/cipherSuites/cipherSuite", ["name"; "algorithms"; "identifiers"; "tlsGroups"; "tlsSignatureSchemes"]);
   ("cryptoPropertiesType/protocolProperties/cipherSuites/cipherSuite/algorithms", []);
   ("cryptoPropertiesType/protocolProperties/cipherSuites/cipherSuite/identifiers", []);
   ("cryptoPropertiesType/protocolProperties/cipherSuites/cipherSuite/tlsGroups", []);
   ("cryptoPropertiesType/protocolProperties/cipherSuites/cipherSuite/tlsSignatureSchemes", []);
   ("cryptoPropertiesType/protocolProperties/ikev2TransformTypes", ["esn"]);
   ("cryptoPropertiesType/protocolProperties/ikev2TransformTypes/encr", ["name"; "keyLength"; "algorithm"]);
   ("cryptoPropertiesType/protocolProperties/ikev2TransformTypes/prf", ["name"; "algorithm"]);
   ("cryptoPropertiesType/protocolProperties/ikev2TransformTypes/integ", ["name"; "algorithm"]);
   ("cryptoPropertiesType/protocolProperties/ikev2TransformTypes/ke", ["group"; "algorithm"]);
   ("cryptoPropertiesType/protocolProperties/ikev2TransformTypes/auth", ["name"; "algorithm"]);
   ("servicesType", []);
   ("service", ["provider"; "group"; "name"; "version"; "description"; "endpoints"; "authenticated"; "x-trust-boundary"; "trustZone"; "data"; "licenses"; "patentAssertions"; "externalReferences"; "properties"; "services"; "releaseNotes"; "tags"]);
   ("service/endpoints", []);
   ("service/data", []);
   ("dataClassificationType", []);
   ("service/data/dataflow", ["classification"; "governance"; "source"; "destination"]);
   ("service/data/dataflow/source", []);
   ("service/data/dataflow/destination", []);
   ("service/patentAssertions", []);
   ("service/services", []);
   ("metadata/authors", []);
   ("metadata/distributionConstraints", ["tlp"]);
   ("dependenciesType", []);
   ("dependencyType", []);
   ("dependencyType/provides", []);
   ("compositionsType", []);
   ("compositionType", []);
   ("compositionType/assemblies", []);
   ("compositionType/dependencies", []);
   ("compositionType/vulnerabilities", []);
   ("vulnerabilitiesType", []);
   ("vulnerabilityType", ["id"; "source"; "references"; "ratings"; "cwes"; "description"; "detail"; "recommendation"; "workaround"; "proofOfConcept"; "advisories"; "created"; "published"; "updated"; "rejected"; "credits"; "tools"; "analysis"; "affects"; "properties"]);
   ("vulnerabilitySourceType", []);
   ("vulnerabilityType/references", []);
   ("vulnerabilityType/references/reference", ["id"; "source"]);
   ("vulnerabilityType/ratings", []);
   ("ratingType", ["source"; "score"; "severity"; "method"; "vector"; "justification"]);
   ("vulnerabilityType/cwes", []);
   ("vulnerabilityType/proofOfConcept", ["reproductionSteps"; "environment"; "supportingMaterial"]);
   ("vulnerabilityType/proofOfConcept/supportingMaterial", []);
   ("vulnerabilityType/advisories", []);
   ("advisoryType", ["title"; "url"]);
   ("vulnerabilityType/credits", ["organizations"; "individuals"]);
   ("vulnerabilityType/credits/organizations", []);
   ("vulnerabilityType/credits/individuals", []);
   ("vulnerabilityType/tools", ["components"; "services"]);
   ("vulnerabilityType/analysis", ["state"; "justification"; "responses"; "detail"; "firstIssued"; "lastUpdated"]);
   ("vulnerabilityType/analysis/responses", []);
   ("vulnerabilityType/affects", []);
   ("vulnerabilityType/affects/target", ["ref"; "versions"]);
   ("vulnerabilityType/affects/target/versions", []);
   ("vulnerabilityType/affects/target/versions/version", ["version"; "range"; "status"]);
   ("annotationsType", []);
   ("annotationType", ["subjects"; "annotator"; "timestamp"; "text"]);
   ("annotationType/subjects", []);
   ("annotatorChoiceType", ["organization"; "individual"; "component"; "service"]);
   ("formulationType", []);
   ("formulaType", ["components"; "services"; "workflows"; "properties"]);
   ("workflowsType", []);
   ("workflowType", ["uid"; "name"; "description"; "resourceReferences"; "tasks"; "taskDependencies"; "taskTypes"; "trigger"; "steps"; "inputs"; "outputs"; "timeStart"; "timeEnd"; "workspaces"; "runtimeTopology"; "properties"]);
   ("resourceReferencesType", []);
   ("resourceReferenceType", ["ref"; "externalReference"]);
   ("tasksType", []);
   ("taskType", ["uid"; "name"; "description"; "resourceReferences"; "taskTypes"; "trigger"; "steps"; "inputs"; "outputs"; "timeStart"; "timeEnd"; "workspaces"; "runtimeTopology"; "properties"]);
   ("taskType/taskTypes", []);
   ("triggerType", ["uid"; "name"; "description"; "resourceReferences"; "type"; "event"; "conditions"; "timeActivated"; "inputs"; "outputs"; "properties"]);
   ("eventType", ["uid"; "description"; "timeReceived"; "data"; "source"; "target"; "properties"]);
   ("triggerType/conditions", []);
   ("triggerType/conditions/condition", ["description"; "expression"; "properties"]);
   ("triggerType/inputs", []);
   ("inputType", ["resource"; "parameters"; "environmentVars"; "data"; "source"; "target"; "properties"]);
   ("parametersType", []);
   ("parameterType", ["name"; "value"; "dataType"]);
   ("inputType/environmentVars", []);
   ("triggerType/outputs", []);
   ("outputType", ["resource"; "environmentVars"; "data"; "type"; "source"; "target"; "properties"]);
   ("outputType/environmentVars", []);
   ("taskType/steps", []);
   ("stepType", ["name"; "description"; "commands"; "properties"]);
   ("stepType/commands", []);
   ("stepType/commands/command", ["executed"; "properties"]);
   ("taskType/inputs", []);
   ("taskType/outputs", []);
   ("workspacesType", []);
   ("workspaceType", []);
   ("workspaceType/aliases", []);
   ("volumeType", ["uid"; "name"; "mode"; "path"; "sizeAllocated"; "persistent"; "remote"; "properties"]);
   ("workflowType/taskTypes", []);
   ("workflowType/steps", []);
   ("workflowType/inputs", []);
   ("workflowType/outputs", []);
   ("declarationsType", ["assessors"; "attestations"; "claims"; "evidence"; "targets"; "affirmation"]);
   ("declarationsType/assessors", []);
   ("declarationsType/assessors/assessor", ["thirdParty"; "organization"]);
   ("declarationsType/attestations", []);
   ("declarationsType/attestations/attestation", ["summary"; "assessor"]);
   ("declarationsType/attestations/attestation/map", ["requirement"; "claims"; "counterClaims"; "conformance"; "confidence"]);
   ("declarationsType/attestations/attestation/map/claims", []);
   ("declarationsType/attestations/attestation/map/counterClaims", []);
   ("declarationsType/attestations/attestation/map/conformance", ["score"; "rationale"; "mitigationStrategies"]);
   ("declarationsType/attestations/attestation/map/conformance/mitigationStrategies", []);
   ("declarationsType/attestations/attestation/map/confidence", ["score"; "rationale"]);
   ("declarationsType/claims", []);
   ("declarationsType/claims/claim", ["target"; "predicate"; "mitigationStrategies"; "reasoning"; "externalReferences"]);
   ("declarationsType/claims/claim/mitigationStrategies", []);
   ("declarationsType/evidence", []);
   ("declarationsType/evidence/evidence", ["propertyName"; "description"; "created"; "expires"; "author"; "reviewer"]);
   ("declarationsType/evidence/evidence/data", ["name"; "contents"; "classification"; "governance"]);
   ("declarationsType/evidence/evidence/data/contents", ["attachment"; "url"]);
   ("declarationsType/targets", ["organizations"; "components"; "services"]);
   ("declarationsType/targets/organizations", []);
   ("declarationsType/targets/components", []);
   ("declarationsType/targets/services", []);
   ("declarationsType/affirmation", ["statement"; "signatories"]);
   ("declarationsType/affirmation/signatories", []);
   ("declarationsType/affirmation/signatories/signatory", ["name"; "role"; "organization"; "externalReference"]);
   ("definitionsType", ["standards"; "patents"]);
   ("standardsType", []);
   ("standard", ["name"; "version"; "description"; "owner"; "requirements"; "levels"; "externalReferences"]);
   ("standard/requirements", []);
   ("standard/requirements/requirement", ["identifier"; "title"; "text"; "descriptions"; "parent"; "properties"; "externalReferences"]);
   ("standard/requirements/requirement/descriptions", []);
   ("standard/levels", []);
   ("standard/levels/level", ["identifier"; "title"; "description"; "requirements"]);
   ("standard/levels/level/requirements", []);
   ("definitionsType/patents", []);
   ("patentType", ["patentNumber"; "applicationNumber"; "jurisdiction"; "priorityApplication"; "publicationNumber"; "title"; "abstract"; "filingDate"; "grantDate"; "patentExpirationDate"; "patentLegalStatus"; "externalReferences"]);
   ("priorityApplicationType", ["applicationNumber"; "jurisdiction"; "filingDate"]);
   ("patentFamilyType", ["familyId"; "priorityApplication"; "members"; "externalReferences"]);
   ("patentFamilyType/members", []);
   ("citationsType", []);
   ("citationType", ["pointers"; "expressions"; "timestamp"; "attributedTo"; "process"; "note"]);
   ("citationType/pointers", []);
   ("citationType/expressions", [])].
