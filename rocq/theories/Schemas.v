(** Generated by tools/gen_schema.py from /repo/schema: the JSON schemas in the normal form
    of SchemaSpec.v. What is left out and what is narrowed is said there. *)
From Verif Require Import Base JsonModel SchemaSpec.
Local Open Scope string_scope.

(** /repo/schema/bom-1.2-strict.schema.json *)
Definition schema_1_2 : schemas :=
  [("", Object [("$schema", Words ["http://cyclonedx.org/schema/bom-1.2a.schema.json"]); ("bomFormat", Words ["CycloneDX"]); ("specVersion", Text); ("serialNumber", Text); ("version", Whole); ("metadata", Ref "metadata"); ("components", ListOf (Ref "component")); ("services", ListOf (Ref "service")); ("externalReferences", ListOf (Ref "externalReference")); ("dependencies", ListOf (Ref "dependency"))] ["bomFormat"; "specVersion"; "version"]);
   ("refType", Text);
   ("metadata", Object [("timestamp", Text); ("tools", ListOf (Ref "tool")); ("authors", ListOf (Ref "organizationalContact")); ("component", Ref "component"); ("manufacture", Ref "organizationalEntity"); ("supplier", Ref "organizationalEntity")] []);
   ("tool", Object [("vendor", Text); ("name", Text); ("version", Text); ("hashes", ListOf (Ref "hash"))] []);
   ("organizationalEntity", Object [("name", Text); ("url", ListOf (Anything)); ("contact", ListOf (Ref "organizationalContact"))] []);
   ("organizationalContact", Object [("name", Text); ("email", Text); ("phone", Text)] []);
   ("component", Object [("type", Words ["application"; "framework"; "library"; "container"; "operating-system"; "device"; "firmware"; "file"]); ("mime-type", Text); ("bom-ref", Ref "refType"); ("supplier", Ref "organizationalEntity"); ("author", Text); ("publisher", Text); ("group", Text); ("name", Text); ("version", Text); ("description", Text); ("scope", Words ["required"; "optional"; "excluded"]); ("hashes", ListOf (Ref "hash")); ("licenses", ListOf (Object [("license", Ref "license"); ("expression", Text)] [])); ("copyright", Text); ("cpe", Text); ("purl", Text); ("swid", Ref "swid"); ("modified", Truth); ("pedigree", Object [("ancestors", ListOf (Ref "component")); ("descendants", ListOf (Ref "component")); ("variants", ListOf (Ref "component")); ("commits", ListOf (Ref "commit")); ("patches", ListOf (Ref "patch")); ("notes", Text)] []); ("externalReferences", ListOf (Ref "externalReference")); ("components", ListOf (Ref "component"))] ["type"; "name"; "version"]);
   ("swid", Object [("tagId", Text); ("name", Text); ("version", Text); ("tagVersion", Whole); ("patch", Truth); ("text", Ref "attachment"); ("url", Text)] ["tagId"; "name"]);
   ("attachment", Object [("contentType", Text); ("encoding", Words ["base64"]); ("content", Text)] ["content"]);
   ("hash", Object [("alg", Ref "hash-alg"); ("content", Ref "hash-content")] ["alg"; "content"]);
   ("hash-alg", Words ["MD5"; "SHA-1"; "SHA-256"; "SHA-384"; "SHA-512"; "SHA3-256"; "SHA3-384"; "SHA3-512"; "BLAKE2b-256"; "BLAKE2b-384"; "BLAKE2b-512"; "BLAKE3"]);
   ("hash-content", Text);
   ("license", Object [("id", Text); ("name", Text); ("text", Ref "attachment"); ("url", Text)] []);
   ("commit", Object [("uid", Text); ("url", Text); ("author", Ref "identifiableAction"); ("committer", Ref "identifiableAction"); ("message", Text)] []);
   ("patch", Object [("type", Words ["unofficial"; "monkey"; "backport"; "cherry-pick"]); ("diff", Ref "diff"); ("resolves", ListOf (Ref "issue"))] ["type"]);
   ("diff", Object [("text", Ref "attachment"); ("url", Text)] []);
   ("issue", Object [("type", Words ["defect"; "enhancement"; "security"]); ("id", Text); ("name", Text); ("description", Text); ("source", Object [("name", Text); ("url", Text)] []); ("references", ListOf (Anything))] ["type"]);
   ("identifiableAction", Object [("timestamp", Text); ("name", Text); ("email", Text)] []);
   ("externalReference", Object [("url", Text); ("comment", Text); ("type", Words ["vcs"; "issue-tracker"; "website"; "advisories"; "bom"; "mailing-list"; "social"; "chat"; "documentation"; "support"; "distribution"; "license"; "build-meta"; "build-system"; "other"])] ["url"; "type"]);
   ("dependency", Object [("ref", Ref "refType"); ("dependsOn", ListOf (Ref "refType"))] ["ref"]);
   ("service", Object [("bom-ref", Ref "refType"); ("provider", Ref "organizationalEntity"); ("group", Text); ("name", Text); ("version", Text); ("description", Text); ("endpoints", ListOf (Anything)); ("authenticated", Truth); ("x-trust-boundary", Truth); ("data", ListOf (Ref "dataClassification")); ("licenses", ListOf (Object [("license", Ref "license"); ("expression", Text)] [])); ("externalReferences", ListOf (Ref "externalReference")); ("services", ListOf (Ref "service"))] ["name"]);
   ("dataClassification", Object [("flow", Ref "dataFlow"); ("classification", Text)] ["flow"; "classification"]);
   ("dataFlow", Words ["inbound"; "outbound"; "bi-directional"; "unknown"])].

(** /repo/schema/bom-1.3-strict.schema.json *)
Definition schema_1_3 : schemas :=
  [("", Object [("$schema", Words ["http://cyclonedx.org/schema/bom-1.3.schema.json"]); ("bomFormat", Words ["CycloneDX"]); ("specVersion", Text); ("serialNumber", Text); ("version", Whole); ("metadata", Ref "metadata"); ("components", ListOf (Ref "component")); ("services", ListOf (Ref "service")); ("externalReferences", ListOf (Ref "externalReference")); ("dependencies", ListOf (Ref "dependency")); ("compositions", ListOf (Ref "compositions"))] ["bomFormat"; "specVersion"; "version"]);
   ("refType", Text);
   ("metadata", Object [("timestamp", Text); ("tools", ListOf (Ref "tool")); ("authors", ListOf (Ref "organizationalContact")); ("component", Ref "component"); ("manufacture", Ref "organizationalEntity"); ("supplier", Ref "organizationalEntity"); ("licenses", ListOf (Ref "licenseChoice")); ("properties", ListOf (Ref "property"))] []);
   ("tool", Object [("vendor", Text); ("name", Text); ("version", Text); ("hashes", ListOf (Ref "hash"))] []);
   ("organizationalEntity", Object [("name", Text); ("url", ListOf (Text)); ("contact", ListOf (Ref "organizationalContact"))] []);
   ("organizationalContact", Object [("name", Text); ("email", Text); ("phone", Text)] []);
   ("component", Object [("type", Words ["application"; "framework"; "library"; "container"; "operating-system"; "device"; "firmware"; "file"]); ("mime-type", Text); ("bom-ref", Ref "refType"); ("supplier", Ref "organizationalEntity"); ("author", Text); ("publisher", Text); ("group", Text); ("name", Text); ("version", Text); ("description", Text); ("scope", Words ["required"; "optional"; "excluded"]); ("hashes", ListOf (Ref "hash")); ("licenses", ListOf (Ref "licenseChoice")); ("copyright", Text); ("cpe", Text); ("purl", Text); ("swid", Ref "swid"); ("modified", Truth); ("pedigree", Object [("ancestors", ListOf (Ref "component")); ("descendants", ListOf (Ref "component")); ("variants", ListOf (Ref "component")); ("commits", ListOf (Ref "commit")); ("patches", ListOf (Ref "patch")); ("notes", Text)] []); ("externalReferences", ListOf (Ref "externalReference")); ("components", ListOf (Ref "component")); ("evidence", Ref "componentEvidence"); ("properties", ListOf (Ref "property"))] ["type"; "name"; "version"]);
   ("swid", Object [("tagId", Text); ("name", Text); ("version", Text); ("tagVersion", Whole); ("patch", Truth); ("text", Ref "attachment"); ("url", Text)] ["tagId"; "name"]);
   ("attachment", Object [("contentType", Text); ("encoding", Words ["base64"]); ("content", Text)] ["content"]);
   ("hash", Object [("alg", Ref "hash-alg"); ("content", Ref "hash-content")] ["alg"; "content"]);
   ("hash-alg", Words ["MD5"; "SHA-1"; "SHA-256"; "SHA-384"; "SHA-512"; "SHA3-256"; "SHA3-384"; "SHA3-512"; "BLAKE2b-256"; "BLAKE2b-384"; "BLAKE2b-512"; "BLAKE3"]);
   ("hash-content", Text);
   ("license", Object [("id", Text); ("name", Text); ("text", Ref "attachment"); ("url", Text)] []);
   ("licenseChoice", Object [("license", Ref "license"); ("expression", Text)] []);
   ("commit", Object [("uid", Text); ("url", Text); ("author", Ref "identifiableAction"); ("committer", Ref "identifiableAction"); ("message", Text)] []);
   ("patch", Object [("type", Words ["unofficial"; "monkey"; "backport"; "cherry-pick"]); ("diff", Ref "diff"); ("resolves", ListOf (Ref "issue"))] ["type"]);
   ("diff", Object [("text", Ref "attachment"); ("url", Text)] []);
   ("issue", Object [("type", Words ["defect"; "enhancement"; "security"]); ("id", Text); ("name", Text); ("description", Text); ("source", Object [("name", Text); ("url", Text)] []); ("references", ListOf (Text))] ["type"]);
   ("identifiableAction", Object [("timestamp", Text); ("name", Text); ("email", Text)] []);
   ("externalReference", Object [("url", Text); ("comment", Text); ("type", Words ["vcs"; "issue-tracker"; "website"; "advisories"; "bom"; "mailing-list"; "social"; "chat"; "documentation"; "support"; "distribution"; "license"; "build-meta"; "build-system"; "other"]); ("hashes", ListOf (Ref "hash"))] ["url"; "type"]);
   ("dependency", Object [("ref", Ref "refType"); ("dependsOn", ListOf (Ref "refType"))] ["ref"]);
   ("service", Object [("bom-ref", Ref "refType"); ("provider", Ref "organizationalEntity"); ("group", Text); ("name", Text); ("version", Text); ("description", Text); ("endpoints", ListOf (Text)); ("authenticated", Truth); ("x-trust-boundary", Truth); ("data", ListOf (Ref "dataClassification")); ("licenses", ListOf (Ref "licenseChoice")); ("externalReferences", ListOf (Ref "externalReference")); ("services", ListOf (Ref "service")); ("properties", ListOf (Ref "property"))] ["name"]);
   ("dataClassification", Object [("flow", Ref "dataFlow"); ("classification", Text)] ["flow"; "classification"]);
   ("dataFlow", Words ["inbound"; "outbound"; "bi-directional"; "unknown"]);
   ("copyright", Object [("text", Text)] ["text"]);
   ("componentEvidence", Object [("licenses", ListOf (Ref "licenseChoice")); ("copyright", ListOf (Ref "copyright"))] []);
   ("compositions", Object [("aggregate", Ref "aggregateType"); ("assemblies", ListOf (Text)); ("dependencies", ListOf (Text))] ["aggregate"]);
   ("aggregateType", Words ["complete"; "incomplete"; "incomplete_first_party_only"; "incomplete_third_party_only"; "unknown"; "not_specified"]);
   ("property", Object [("name", Text); ("value", Text)] [])].

(** /repo/schema/bom-1.4.schema.json, jsf-0.82.schemax.json *)
Definition schema_1_4 : schemas :=
  [("", Object [("$schema", Words ["http://cyclonedx.org/schema/bom-1.4.schema.json"]); ("bomFormat", Words ["CycloneDX"]); ("specVersion", Text); ("serialNumber", Text); ("version", Whole); ("metadata", Ref "metadata"); ("components", ListOf (Ref "component")); ("services", ListOf (Ref "service")); ("externalReferences", ListOf (Ref "externalReference")); ("dependencies", ListOf (Ref "dependency")); ("compositions", ListOf (Ref "compositions")); ("vulnerabilities", ListOf (Ref "vulnerability")); ("signature", Ref "signature")] ["bomFormat"; "specVersion"; "version"]);
   ("refType", Text);
   ("metadata", Object [("timestamp", Text); ("tools", ListOf (Ref "tool")); ("authors", ListOf (Ref "organizationalContact")); ("component", Ref "component"); ("manufacture", Ref "organizationalEntity"); ("supplier", Ref "organizationalEntity"); ("licenses", ListOf (Ref "licenseChoice")); ("properties", ListOf (Ref "property"))] []);
   ("tool", Object [("vendor", Text); ("name", Text); ("version", Text); ("hashes", ListOf (Ref "hash")); ("externalReferences", ListOf (Ref "externalReference"))] []);
   ("organizationalEntity", Object [("name", Text); ("url", ListOf (Text)); ("contact", ListOf (Ref "organizationalContact"))] []);
   ("organizationalContact", Object [("name", Text); ("email", Text); ("phone", Text)] []);
   ("component", Object [("type", Words ["application"; "framework"; "library"; "container"; "operating-system"; "device"; "firmware"; "file"]); ("mime-type", Text); ("bom-ref", Ref "refType"); ("supplier", Ref "organizationalEntity"); ("author", Text); ("publisher", Text); ("group", Text); ("name", Text); ("version", Text); ("description", Text); ("scope", Words ["required"; "optional"; "excluded"]); ("hashes", ListOf (Ref "hash")); ("licenses", ListOf (Ref "licenseChoice")); ("copyright", Text); ("cpe", Text); ("purl", Text); ("swid", Ref "swid"); ("modified", Truth); ("pedigree", Object [("ancestors", ListOf (Ref "component")); ("descendants", ListOf (Ref "component")); ("variants", ListOf (Ref "component")); ("commits", ListOf (Ref "commit")); ("patches", ListOf (Ref "patch")); ("notes", Text)] []); ("externalReferences", ListOf (Ref "externalReference")); ("components", ListOf (Ref "component")); ("evidence", Ref "componentEvidence"); ("releaseNotes", Ref "releaseNotes"); ("properties", ListOf (Ref "property")); ("signature", Ref "signature")] ["type"; "name"]);
   ("swid", Object [("tagId", Text); ("name", Text); ("version", Text); ("tagVersion", Whole); ("patch", Truth); ("text", Ref "attachment"); ("url", Text)] ["tagId"; "name"]);
   ("attachment", Object [("contentType", Text); ("encoding", Words ["base64"]); ("content", Text)] ["content"]);
   ("hash", Object [("alg", Ref "hash-alg"); ("content", Ref "hash-content")] ["alg"; "content"]);
   ("hash-alg", Words ["MD5"; "SHA-1"; "SHA-256"; "SHA-384"; "SHA-512"; "SHA3-256"; "SHA3-384"; "SHA3-512"; "BLAKE2b-256"; "BLAKE2b-384"; "BLAKE2b-512"; "BLAKE3"]);
   ("hash-content", Text);
   ("license", Object [("id", Text); ("name", Text); ("text", Ref "attachment"); ("url", Text)] []);
   ("licenseChoice", Object [("license", Ref "license"); ("expression", Text)] []);
   ("commit", Object [("uid", Text); ("url", Text); ("author", Ref "identifiableAction"); ("committer", Ref "identifiableAction"); ("message", Text)] []);
   ("patch", Object [("type", Words ["unofficial"; "monkey"; "backport"; "cherry-pick"]); ("diff", Ref "diff"); ("resolves", ListOf (Ref "issue"))] ["type"]);
   ("diff", Object [("text", Ref "attachment"); ("url", Text)] []);
   ("issue", Object [("type", Words ["defect"; "enhancement"; "security"]); ("id", Text); ("name", Text); ("description", Text); ("source", Object [("name", Text); ("url", Text)] []); ("references", ListOf (Text))] ["type"]);
   ("identifiableAction", Object [("timestamp", Text); ("name", Text); ("email", Text)] []);
   ("externalReference", Object [("url", Text); ("comment", Text); ("type", Words ["vcs"; "issue-tracker"; "website"; "advisories"; "bom"; "mailing-list"; "social"; "chat"; "documentation"; "support"; "distribution"; "license"; "build-meta"; "build-system"; "release-notes"; "other"]); ("hashes", ListOf (Ref "hash"))] ["url"; "type"]);
   ("dependency", Object [("ref", Ref "refType"); ("dependsOn", ListOf (Ref "refType"))] ["ref"]);
   ("service", Object [("bom-ref", Ref "refType"); ("provider", Ref "organizationalEntity"); ("group", Text); ("name", Text); ("version", Text); ("description", Text); ("endpoints", ListOf (Text)); ("authenticated", Truth); ("x-trust-boundary", Truth); ("data", ListOf (Ref "dataClassification")); ("licenses", ListOf (Ref "licenseChoice")); ("externalReferences", ListOf (Ref "externalReference")); ("services", ListOf (Ref "service")); ("releaseNotes", Ref "releaseNotes"); ("properties", ListOf (Ref "property")); ("signature", Ref "signature")] ["name"]);
   ("dataClassification", Object [("flow", Ref "dataFlow"); ("classification", Text)] ["flow"; "classification"]);
   ("dataFlow", Words ["inbound"; "outbound"; "bi-directional"; "unknown"]);
   ("copyright", Object [("text", Text)] ["text"]);
   ("componentEvidence", Object [("licenses", ListOf (Ref "licenseChoice")); ("copyright", ListOf (Ref "copyright"))] []);
   ("compositions", Object [("aggregate", Ref "aggregateType"); ("assemblies", ListOf (Text)); ("dependencies", ListOf (Text)); ("signature", Ref "signature")] ["aggregate"]);
   ("aggregateType", Words ["complete"; "incomplete"; "incomplete_first_party_only"; "incomplete_third_party_only"; "unknown"; "not_specified"]);
   ("property", Object [("name", Text); ("value", Text)] []);
   ("localeType", Text);
   ("releaseType", Text);
   ("note", Object [("locale", Ref "localeType"); ("text", Ref "attachment")] ["text"]);
   ("releaseNotes", Object [("type", Ref "releaseType"); ("title", Text); ("featuredImage", Text); ("socialImage", Text); ("description", Text); ("timestamp", Text); ("aliases", ListOf (Text)); ("tags", ListOf (Text)); ("resolves", ListOf (Ref "issue")); ("notes", ListOf (Ref "note")); ("properties", ListOf (Ref "property"))] ["type"]);
   ("advisory", Object [("title", Text); ("url", Text)] ["url"]);
   ("cwe", Whole);
   ("severity", Words ["critical"; "high"; "medium"; "low"; "info"; "none"; "unknown"]);
   ("scoreMethod", Words ["CVSSv2"; "CVSSv3"; "CVSSv31"; "OWASP"; "other"]);
   ("impactAnalysisState", Words ["resolved"; "resolved_with_pedigree"; "exploitable"; "in_triage"; "false_positive"; "not_affected"]);
   ("impactAnalysisJustification", Words ["code_not_present"; "code_not_reachable"; "requires_configuration"; "requires_dependency"; "requires_environment"; "protected_by_compiler"; "protected_at_runtime"; "protected_at_perimeter"; "protected_by_mitigating_control"]);
   ("rating", Object [("source", Ref "vulnerabilitySource"); ("score", Number); ("severity", Ref "severity"); ("method", Ref "scoreMethod"); ("vector", Text); ("justification", Text)] []);
   ("vulnerabilitySource", Object [("url", Text); ("name", Text)] []);
   ("vulnerability", Object [("bom-ref", Ref "refType"); ("id", Text); ("source", Ref "vulnerabilitySource"); ("references", ListOf (Object [("id", Text); ("source", Ref "vulnerabilitySource")] ["id"; "source"])); ("ratings", ListOf (Ref "rating")); ("cwes", ListOf (Ref "cwe")); ("description", Text); ("detail", Text); ("recommendation", Text); ("advisories", ListOf (Ref "advisory")); ("created", Text); ("published", Text); ("updated", Text); ("credits", Object [("organizations", ListOf (Ref "organizationalEntity")); ("individuals", ListOf (Ref "organizationalContact"))] []); ("tools", ListOf (Ref "tool")); ("analysis", Object [("state", Ref "impactAnalysisState"); ("justification", Ref "impactAnalysisJustification"); ("response", ListOf (Words ["can_not_fix"; "will_not_fix"; "update"; "rollback"; "workaround_available"])); ("detail", Text)] []); ("affects", ListOf (Object [("ref", Ref "refType"); ("versions", ListOf (Object [("version", Ref "version"); ("range", Ref "range"); ("status", Ref "affectedStatus")] []))] ["ref"])); ("properties", ListOf (Ref "property"))] []);
   ("affectedStatus", Words ["affected"; "unaffected"; "unknown"]);
   ("version", Filled);
   ("range", Filled);
   ("signature", Ref "jsf:signature");
   ("jsf:signature", OneOf [Object [("signers", ListOf (Ref "jsf:signer"))] []; Object [("chain", ListOf (Ref "jsf:signer"))] []; Ref "jsf:signer"]);
   ("jsf:signer", Object [("algorithm", OneOf [Words ["RS256"; "RS384"; "RS512"; "PS256"; "PS384"; "PS512"; "ES256"; "ES384"; "ES512"; "Ed25519"; "Ed448"; "HS256"; "HS384"; "HS512"]; Text]); ("keyId", Text); ("publicKey", Ref "jsf:publicKey"); ("certificatePath", ListOf (Text)); ("excludes", ListOf (Text)); ("value", Text)] ["algorithm"; "value"]);
   ("jsf:keyType", Words ["EC"; "OKP"; "RSA"]);
   ("jsf:publicKey", Object [("kty", Text); ("crv", Text); ("x", Text); ("y", Text); ("n", Text); ("e", Text)] ["kty"])].

(** /repo/schema/bom-1.5.schema.json, jsf-0.82.schemax.json *)
Definition schema_1_5 : schemas :=
  [("", Object [("$schema", Words ["http://cyclonedx.org/schema/bom-1.5.schema.json"]); ("bomFormat", Words ["CycloneDX"]); ("specVersion", Text); ("serialNumber", Text); ("version", Whole); ("metadata", Ref "metadata"); ("components", ListOf (Ref "component")); ("services", ListOf (Ref "service")); ("externalReferences", ListOf (Ref "externalReference")); ("dependencies", ListOf (Ref "dependency")); ("compositions", ListOf (Ref "compositions")); ("vulnerabilities", ListOf (Ref "vulnerability")); ("annotations", ListOf (Ref "annotations")); ("formulation", ListOf (Ref "formula")); ("properties", ListOf (Ref "property")); ("signature", Ref "signature")] ["bomFormat"; "specVersion"; "version"]);
   ("refType", Filled);
   ("refLinkType", Ref "refType");
   ("bomLinkDocumentType", Text);
   ("bomLinkElementType", Text);
   ("bomLink", OneOf [Ref "bomLinkDocumentType"; Ref "bomLinkElementType"]);
   ("metadata", Object [("timestamp", Text); ("lifecycles", ListOf (OneOf [Object [("phase", Words ["design"; "pre-build"; "build"; "post-build"; "operations"; "discovery"; "decommission"])] ["phase"]; Object [("name", Text); ("description", Text)] ["name"]])); ("tools", OneOf [Object [("components", ListOf (Ref "component")); ("services", ListOf (Ref "service"))] []; ListOf (Ref "tool")]); ("authors", ListOf (Ref "organizationalContact")); ("component", Ref "component"); ("manufacture", Ref "organizationalEntity"); ("supplier", Ref "organizationalEntity"); ("licenses", Ref "licenseChoice"); ("properties", ListOf (Ref "property"))] []);
   ("tool", Object [("vendor", Text); ("name", Text); ("version", Text); ("hashes", ListOf (Ref "hash")); ("externalReferences", ListOf (Ref "externalReference"))] []);
   ("organizationalEntity", Object [("bom-ref", Ref "refType"); ("name", Text); ("url", ListOf (Text)); ("contact", ListOf (Ref "organizationalContact"))] []);
   ("organizationalContact", Object [("bom-ref", Ref "refType"); ("name", Text); ("email", Text); ("phone", Text)] []);
   ("component", Object [("type", Words ["application"; "framework"; "library"; "container"; "platform"; "operating-system"; "device"; "device-driver"; "firmware"; "file"; "machine-learning-model"; "data"]); ("mime-type", Text); ("bom-ref", Ref "refType"); ("supplier", Ref "organizationalEntity"); ("author", Text); ("publisher", Text); ("group", Text); ("name", Text); ("version", Text); ("description", Text); ("scope", Words ["required"; "optional"; "excluded"]); ("hashes", ListOf (Ref "hash")); ("licenses", Ref "licenseChoice"); ("copyright", Text); ("cpe", Text); ("purl", Text); ("swid", Ref "swid"); ("modified", Truth); ("pedigree", Object [("ancestors", ListOf (Ref "component")); ("descendants", ListOf (Ref "component")); ("variants", ListOf (Ref "component")); ("commits", ListOf (Ref "commit")); ("patches", ListOf (Ref "patch")); ("notes", Text)] []); ("externalReferences", ListOf (Ref "externalReference")); ("components", ListOf (Ref "component")); ("evidence", Ref "componentEvidence"); ("releaseNotes", Ref "releaseNotes"); ("modelCard", Ref "modelCard"); ("data", ListOf (Ref "componentData")); ("properties", ListOf (Ref "property")); ("signature", Ref "signature")] ["type"; "name"]);
   ("swid", Object [("tagId", Text); ("name", Text); ("version", Text); ("tagVersion", Whole); ("patch", Truth); ("text", Ref "attachment"); ("url", Text)] ["tagId"; "name"]);
   ("attachment", Object [("contentType", Text); ("encoding", Words ["base64"]); ("content", Text)] ["content"]);
   ("hash", Object [("alg", Ref "hash-alg"); ("content", Ref "hash-content")] ["alg"; "content"]);
   ("hash-alg", Words ["MD5"; "SHA-1"; "SHA-256"; "SHA-384"; "SHA-512"; "SHA3-256"; "SHA3-384"; "SHA3-512"; "BLAKE2b-256"; "BLAKE2b-384"; "BLAKE2b-512"; "BLAKE3"]);
   ("hash-content", Text);
   ("license", Object [("bom-ref", Ref "refType"); ("id", Text); ("name", Text); ("text", Ref "attachment"); ("url", Text); ("licensing", Object [("altIds", ListOf (Text)); ("licensor", Object [("organization", Ref "organizationalEntity"); ("individual", Ref "organizationalContact")] []); ("licensee", Object [("organization", Ref "organizationalEntity"); ("individual", Ref "organizationalContact")] []); ("purchaser", Object [("organization", Ref "organizationalEntity"); ("individual", Ref "organizationalContact")] []); ("purchaseOrder", Text); ("licenseTypes", ListOf (Words ["academic"; "appliance"; "client-access"; "concurrent-user"; "core-points"; "custom-metric"; "device"; "evaluation"; "named-user"; "node-locked"; "oem"; "perpetual"; "processor-points"; "subscription"; "user"; "other"])); ("lastRenewal", Text); ("expiration", Text)] []); ("properties", ListOf (Ref "property"))] []);
   ("licenseChoice", OneOf [ListOf (Object [("license", Ref "license")] ["license"]); ListOf (Object [("expression", Text)] ["expression"])]);
   ("commit", Object [("uid", Text); ("url", Text); ("author", Ref "identifiableAction"); ("committer", Ref "identifiableAction"); ("message", Text)] []);
   ("patch", Object [("type", Words ["unofficial"; "monkey"; "backport"; "cherry-pick"]); ("diff", Ref "diff"); ("resolves", ListOf (Ref "issue"))] ["type"]);
   ("diff", Object [("text", Ref "attachment"); ("url", Text)] []);
   ("issue", Object [("type", Words ["defect"; "enhancement"; "security"]); ("id", Text); ("name", Text); ("description", Text); ("source", Object [("name", Text); ("url", Text)] []); ("references", ListOf (Text))] ["type"]);
   ("identifiableAction", Object [("timestamp", Text); ("name", Text); ("email", Text)] []);
   ("externalReference", Object [("url", OneOf [Text; Ref "bomLink"]); ("comment", Text); ("type", Words ["vcs"; "issue-tracker"; "website"; "advisories"; "bom"; "mailing-list"; "social"; "chat"; "documentation"; "support"; "distribution"; "distribution-intake"; "license"; "build-meta"; "build-system"; "release-notes"; "security-contact"; "model-card"; "log"; "configuration"; "evidence"; "formulation"; "attestation"; "threat-model"; "adversary-model"; "risk-assessment"; "vulnerability-assertion"; "exploitability-statement"; "pentest-report"; "static-analysis-report"; "dynamic-analysis-report"; "runtime-analysis-report"; "component-analysis-report"; "maturity-report"; "certification-report"; "codified-infrastructure"; "quality-metrics"; "poam"; "other"]); ("hashes", ListOf (Ref "hash"))] ["url"; "type"]);
   ("dependency", Object [("ref", Ref "refLinkType"); ("dependsOn", ListOf (Ref "refLinkType"))] ["ref"]);
   ("service", Object [("bom-ref", Ref "refType"); ("provider", Ref "organizationalEntity"); ("group", Text); ("name", Text); ("version", Text); ("description", Text); ("endpoints", ListOf (Text)); ("authenticated", Truth); ("x-trust-boundary", Truth); ("trustZone", Text); ("data", ListOf (Ref "serviceData")); ("licenses", Ref "licenseChoice"); ("externalReferences", ListOf (Ref "externalReference")); ("services", ListOf (Ref "service")); ("releaseNotes", Ref "releaseNotes"); ("properties", ListOf (Ref "property")); ("signature", Ref "signature")] ["name"]);
   ("serviceData", Object [("flow", Ref "dataFlowDirection"); ("classification", Ref "dataClassification"); ("name", Text); ("description", Text); ("governance", Ref "dataGovernance"); ("source", ListOf (OneOf [Text; Ref "bomLinkElementType"])); ("destination", ListOf (OneOf [Text; Ref "bomLinkElementType"]))] ["flow"; "classification"]);
   ("dataFlowDirection", Words ["inbound"; "outbound"; "bi-directional"; "unknown"]);
   ("copyright", Object [("text", Text)] ["text"]);
   ("componentEvidence", Object [("identity", Object [("field", Words ["group"; "name"; "version"; "purl"; "cpe"; "swid"; "hash"]); ("confidence", Number); ("methods", ListOf (Object [("technique", Words ["source-code-analysis"; "binary-analysis"; "manifest-analysis"; "ast-fingerprint"; "hash-comparison"; "instrumentation"; "dynamic-analysis"; "filename"; "attestation"; "other"]); ("confidence", Number); ("value", Text)] ["technique"; "confidence"])); ("tools", ListOf (OneOf [Ref "refLinkType"; Ref "bomLinkElementType"]))] ["field"]); ("occurrences", ListOf (Object [("bom-ref", Ref "refType"); ("location", Text)] ["location"])); ("callstack", Object [("frames", ListOf (Object [("package", Text); ("module", Text); ("function", Text); ("parameters", ListOf (Text)); ("line", Whole); ("column", Whole); ("fullFilename", Text)] ["module"]))] []); ("licenses", Ref "licenseChoice"); ("copyright", ListOf (Ref "copyright"))] []);
   ("compositions", Object [("bom-ref", Ref "refType"); ("aggregate", Ref "aggregateType"); ("assemblies", ListOf (OneOf [Ref "refLinkType"; Ref "bomLinkElementType"])); ("dependencies", ListOf (Text)); ("vulnerabilities", ListOf (Text)); ("signature", Ref "signature")] ["aggregate"]);
   ("aggregateType", Words ["complete"; "incomplete"; "incomplete_first_party_only"; "incomplete_first_party_proprietary_only"; "incomplete_first_party_opensource_only"; "incomplete_third_party_only"; "incomplete_third_party_proprietary_only"; "incomplete_third_party_opensource_only"; "unknown"; "not_specified"]);
   ("property", Object [("name", Text); ("value", Text)] []);
   ("localeType", Text);
   ("releaseType", Text);
   ("note", Object [("locale", Ref "localeType"); ("text", Ref "attachment")] ["text"]);
   ("releaseNotes", Object [("type", Ref "releaseType"); ("title", Text); ("featuredImage", Text); ("socialImage", Text); ("description", Text); ("timestamp", Text); ("aliases", ListOf (Text)); ("tags", ListOf (Text)); ("resolves", ListOf (Ref "issue")); ("notes", ListOf (Ref "note")); ("properties", ListOf (Ref "property"))] ["type"]);
   ("advisory", Object [("title", Text); ("url", Text)] ["url"]);
   ("cwe", Whole);
   ("severity", Words ["critical"; "high"; "medium"; "low"; "info"; "none"; "unknown"]);
   ("scoreMethod", Words ["CVSSv2"; "CVSSv3"; "CVSSv31"; "CVSSv4"; "OWASP"; "SSVC"; "other"]);
   ("impactAnalysisState", Words ["resolved"; "resolved_with_pedigree"; "exploitable"; "in_triage"; "false_positive"; "not_affected"]);
   ("impactAnalysisJustification", Words ["code_not_present"; "code_not_reachable"; "requires_configuration"; "requires_dependency"; "requires_environment"; "protected_by_compiler"; "protected_at_runtime"; "protected_at_perimeter"; "protected_by_mitigating_control"]);
   ("rating", Object [("source", Ref "vulnerabilitySource"); ("score", Number); ("severity", Ref "severity"); ("method", Ref "scoreMethod"); ("vector", Text); ("justification", Text)] []);
   ("vulnerabilitySource", Object [("url", Text); ("name", Text)] []);
   ("vulnerability", Object [("bom-ref", Ref "refType"); ("id", Text); ("source", Ref "vulnerabilitySource"); ("references", ListOf (Object [("id", Text); ("source", Ref "vulnerabilitySource")] ["id"; "source"])); ("ratings", ListOf (Ref "rating")); ("cwes", ListOf (Ref "cwe")); ("description", Text); ("detail", Text); ("recommendation", Text); ("workaround", Text); ("proofOfConcept", Object [("reproductionSteps", Text); ("environment", Text); ("supportingMaterial", ListOf (Ref "attachment"))] []); ("advisories", ListOf (Ref "advisory")); ("created", Text); ("published", Text); ("updated", Text); ("rejected", Text); ("credits", Object [("organizations", ListOf (Ref "organizationalEntity")); ("individuals", ListOf (Ref "organizationalContact"))] []); ("tools", OneOf [Object [("components", ListOf (Ref "component")); ("services", ListOf (Ref "service"))] []; ListOf (Ref "tool")]); ("analysis", Object [("state", Ref "impactAnalysisState"); ("justification", Ref "impactAnalysisJustification"); ("response", ListOf (Words ["can_not_fix"; "will_not_fix"; "update"; "rollback"; "workaround_available"])); ("detail", Text); ("firstIssued", Text); ("lastUpdated", Text)] []); ("affects", ListOf (Object [("ref", OneOf [Ref "refLinkType"; Ref "bomLinkElementType"]); ("versions", ListOf (Object [("version", Ref "version"); ("range", Ref "range"); ("status", Ref "affectedStatus")] []))] ["ref"])); ("properties", ListOf (Ref "property"))] []);
   ("affectedStatus", Words ["affected"; "unaffected"; "unknown"]);
   ("version", Filled);
   ("range", Filled);
   ("annotations", Object [("bom-ref", Ref "refType"); ("subjects", ListOf (OneOf [Ref "refLinkType"; Ref "bomLinkElementType"])); ("annotator", Object [("organization", Ref "organizationalEntity"); ("individual", Ref "organizationalContact"); ("component", Ref "component"); ("service", Ref "service")] []); ("timestamp", Text); ("text", Text); ("signature", Ref "signature")] ["subjects"; "annotator"; "timestamp"; "text"]);
   ("modelCard", Object [("bom-ref", Ref "refType"); ("modelParameters", Object [("approach", Object [("type", Words ["supervised"; "unsupervised"; "reinforcement-learning"; "semi-supervised"; "self-supervised"])] []); ("task", Text); ("architectureFamily", Text); ("modelArchitecture", Text); ("datasets", ListOf (OneOf [Ref "componentData"; Object [("ref", OneOf [Ref "refLinkType"; Ref "bomLinkElementType"])] []])); ("inputs", ListOf (Ref "inputOutputMLParameters")); ("outputs", ListOf (Ref "inputOutputMLParameters"))] []); ("quantitativeAnalysis", Object [("performanceMetrics", ListOf (Ref "performanceMetric")); ("graphics", Ref "graphicsCollection")] []); ("considerations", Object [("users", ListOf (Text)); ("useCases", ListOf (Text)); ("technicalLimitations", ListOf (Text)); ("performanceTradeoffs", ListOf (Text)); ("ethicalConsiderations", ListOf (Ref "risk")); ("fairnessAssessments", ListOf (Ref "fairnessAssessment"))] []); ("properties", ListOf (Ref "property"))] []);
   ("inputOutputMLParameters", Object [("format", Text)] []);
   ("componentData", Object [("bom-ref", Ref "refType"); ("type", Words ["source-code"; "configuration"; "dataset"; "definition"; "other"]); ("name", Text); ("contents", Object [("attachment", Ref "attachment"); ("url", Text); ("properties", ListOf (Ref "property"))] []); ("classification", Ref "dataClassification"); ("sensitiveData", ListOf (Text)); ("graphics", Ref "graphicsCollection"); ("description", Text); ("governance", Ref "dataGovernance")] ["type"]);
   ("dataGovernance", Object [("custodians", ListOf (Ref "dataGovernanceResponsibleParty")); ("stewards", ListOf (Ref "dataGovernanceResponsibleParty")); ("owners", ListOf (Ref "dataGovernanceResponsibleParty"))] []);
   ("dataGovernanceResponsibleParty", Object [("organization", Ref "organizationalEntity"); ("contact", Ref "organizationalContact")] []);
   ("graphicsCollection", Object [("description", Text); ("collection", ListOf (Ref "graphic"))] []);
   ("graphic", Object [("name", Text); ("image", Ref "attachment")] []);
   ("performanceMetric", Object [("type", Text); ("value", Text); ("slice", Text); ("confidenceInterval", Object [("lowerBound", Text); ("upperBound", Text)] [])] []);
   ("risk", Object [("name", Text); ("mitigationStrategy", Text)] []);
   ("fairnessAssessment", Object [("groupAtRisk", Text); ("benefits", Text); ("harms", Text); ("mitigationStrategy", Text)] []);
   ("dataClassification", Text);
   ("formula", Object [("bom-ref", Ref "refType"); ("components", ListOf (Ref "component")); ("services", ListOf (Ref "service")); ("workflows", ListOf (Ref "workflow")); ("properties", ListOf (Ref "property"))] []);
   ("workflow", Object [("bom-ref", Ref "refType"); ("uid", Text); ("name", Text); ("description", Text); ("resourceReferences", ListOf (Ref "resourceReferenceChoice")); ("tasks", ListOf (Ref "task")); ("taskDependencies", ListOf (Ref "dependency")); ("taskTypes", ListOf (Ref "taskType")); ("trigger", Ref "trigger"); ("steps", ListOf (Ref "step")); ("inputs", ListOf (Ref "inputType")); ("outputs", ListOf (Ref "outputType")); ("timeStart", Text); ("timeEnd", Text); ("workspaces", ListOf (Ref "workspace")); ("runtimeTopology", ListOf (Ref "dependency")); ("properties", ListOf (Ref "property"))] ["bom-ref"; "uid"; "taskTypes"]);
   ("task", Object [("bom-ref", Ref "refType"); ("uid", Text); ("name", Text); ("description", Text); ("resourceReferences", ListOf (Ref "resourceReferenceChoice")); ("taskTypes", ListOf (Ref "taskType")); ("trigger", Ref "trigger"); ("steps", ListOf (Ref "step")); ("inputs", ListOf (Ref "inputType")); ("outputs", ListOf (Ref "outputType")); ("timeStart", Text); ("timeEnd", Text); ("workspaces", ListOf (Ref "workspace")); ("runtimeTopology", ListOf (Ref "dependency")); ("properties", ListOf (Ref "property"))] ["bom-ref"; "uid"; "taskTypes"]);
   ("step", Object [("name", Text); ("description", Text); ("commands", ListOf (Ref "command")); ("properties", ListOf (Ref "property"))] []);
   ("command", Object [("executed", Text); ("properties", ListOf (Ref "property"))] []);
   ("workspace", Object [("bom-ref", Ref "refType"); ("uid", Text); ("name", Text); ("aliases", ListOf (Text)); ("description", Text); ("resourceReferences", ListOf (Ref "resourceReferenceChoice")); ("accessMode", Words ["read-only"; "read-write"; "read-write-once"; "write-once"; "write-only"]); ("mountPath", Text); ("managedDataType", Text); ("volumeRequest", Text); ("volume", Ref "volume"); ("properties", ListOf (Ref "property"))] ["bom-ref"; "uid"]);
   ("volume", Object [("uid", Text); ("name", Text); ("mode", Words ["filesystem"; "block"]); ("path", Text); ("sizeAllocated", Text); ("persistent", Truth); ("remote", Truth); ("properties", ListOf (Ref "property"))] []);
   ("trigger", Object [("bom-ref", Ref "refType"); ("uid", Text); ("name", Text); ("description", Text); ("resourceReferences", ListOf (Ref "resourceReferenceChoice")); ("type", Words ["manual"; "api"; "webhook"; "scheduled"]); ("event", Ref "event"); ("conditions", ListOf (Ref "condition")); ("timeActivated", Text); ("inputs", ListOf (Ref "inputType")); ("outputs", ListOf (Ref "outputType")); ("properties", ListOf (Ref "property"))] ["type"; "bom-ref"; "uid"]);
   ("event", Object [("uid", Text); ("description", Text); ("timeReceived", Text); ("data", Ref "attachment"); ("source", Ref "resourceReferenceChoice"); ("target", Ref "resourceReferenceChoice"); ("properties", ListOf (Ref "property"))] []);
   ("inputType", Object [("source", Ref "resourceReferenceChoice"); ("target", Ref "resourceReferenceChoice"); ("resource", Ref "resourceReferenceChoice"); ("parameters", ListOf (Ref "parameter")); ("environmentVars", ListOf (OneOf [Ref "property"; Text])); ("data", Ref "attachment"); ("properties", ListOf (Ref "property"))] []);
   ("outputType", Object [("type", Words ["artifact"; "attestation"; "log"; "evidence"; "metrics"; "other"]); ("source", Ref "resourceReferenceChoice"); ("target", Ref "resourceReferenceChoice"); ("resource", Ref "resourceReferenceChoice"); ("data", Ref "attachment"); ("environmentVars", ListOf (OneOf [Ref "property"; Text])); ("properties", ListOf (Ref "property"))] []);
   ("resourceReferenceChoice", Object [("ref", OneOf [Ref "refLinkType"; Ref "bomLinkElementType"]); ("externalReference", Ref "externalReference")] []);
   ("condition", Object [("description", Text); ("expression", Text); ("properties", ListOf (Ref "property"))] []);
   ("taskType", Words ["copy"; "clone"; "lint"; "scan"; "merge"; "build"; "test"; "deliver"; "deploy"; "release"; "clean"; "other"]);
   ("parameter", Object [("name", Text); ("value", Text); ("dataType", Text)] []);
   ("signature", Ref "jsf:signature");
   ("jsf:signature", OneOf [Object [("signers", ListOf (Ref "jsf:signer"))] []; Object [("chain", ListOf (Ref "jsf:signer"))] []; Ref "jsf:signer"]);
   ("jsf:signer", Object [("algorithm", OneOf [Words ["RS256"; "RS384"; "RS512"; "PS256"; "PS384"; "PS512"; "ES256"; "ES384"; "ES512"; "Ed25519"; "Ed448"; "HS256"; "HS384"; "HS512"]; Text]); ("keyId", Text); ("publicKey", Ref "jsf:publicKey"); ("certificatePath", ListOf (Text)); ("excludes", ListOf (Text)); ("value", Text)] ["algorithm"; "value"]);
   ("jsf:keyType", Words ["EC"; "OKP"; "RSA"]);
   ("jsf:publicKey", Object [("kty", Text); ("crv", Text); ("x", Text); ("y", Text); ("n", Text); ("e", Text)] ["kty"])].

(** /repo/schema/bom-1.6.schema.json, jsf-0.82.schemax.json *)
Definition schema_1_6 : schemas :=
  [("", Object [("$schema", Text); ("bomFormat", Words ["CycloneDX"]); ("specVersion", Text); ("serialNumber", Text); ("version", Whole); ("metadata", Ref "metadata"); ("components", ListOf (Ref "component")); ("services", ListOf (Ref "service")); ("externalReferences", ListOf (Ref "externalReference")); ("dependencies", ListOf (Ref "dependency")); ("compositions", ListOf (Ref "compositions")); ("vulnerabilities", ListOf (Ref "vulnerability")); ("annotations", ListOf (Ref "annotations")); ("formulation", ListOf (Ref "formula")); ("declarations", Object [("assessors", ListOf (Object [("bom-ref", Ref "refType"); ("thirdParty", Truth); ("organization", Ref "organizationalEntity")] [])); ("attestations", ListOf (Object [("summary", Text); ("assessor", Ref "refLinkType"); ("map", ListOf (Object [("requirement", Ref "refLinkType"); ("claims", ListOf (Ref "refLinkType")); ("counterClaims", ListOf (Ref "refLinkType")); ("conformance", Object [("score", Number); ("rationale", Text); ("mitigationStrategies", ListOf (Ref "refLinkType"))] []); ("confidence", Object [("score", Number); ("rationale", Text)] [])] [])); ("signature", Ref "signature")] [])); ("claims", ListOf (Object [("bom-ref", Ref "refType"); ("target", Ref "refLinkType"); ("predicate", Text); ("mitigationStrategies", ListOf (Ref "refLinkType")); ("reasoning", Text); ("evidence", ListOf (Ref "refLinkType")); ("counterEvidence", ListOf (Ref "refLinkType")); ("externalReferences", ListOf (Ref "externalReference")); ("signature", Ref "signature")] [])); ("evidence", ListOf (Object [("bom-ref", Ref "refType"); ("propertyName", Text); ("description", Text); ("data", ListOf (Object [("name", Text); ("contents", Object [("attachment", Ref "attachment"); ("url", Text)] []); ("classification", Ref "dataClassification"); ("sensitiveData", ListOf (Text)); ("governance", Ref "dataGovernance")] [])); ("created", Text); ("expires", Text); ("author", Ref "organizationalContact"); ("reviewer", Ref "organizationalContact"); ("signature", Ref "signature")] [])); ("targets", Object [("organizations", ListOf (Ref "organizationalEntity")); ("components", ListOf (Ref "component")); ("services", ListOf (Ref "service"))] []); ("affirmation", Object [("statement", Text); ("signatories", ListOf (Object [("name", Text); ("role", Text); ("signature", Ref "signature"); ("organization", Ref "organizationalEntity"); ("externalReference", Ref "externalReference")] [])); ("signature", Ref "signature")] []); ("signature", Ref "signature")] []); ("definitions", Object [("standards", ListOf (Ref "standard"))] []); ("properties", ListOf (Ref "property")); ("signature", Ref "signature")] ["bomFormat"; "specVersion"]);
   ("refType", Filled);
   ("refLinkType", Ref "refType");
   ("bomLinkDocumentType", Text);
   ("bomLinkElementType", Text);
   ("bomLink", OneOf [Ref "bomLinkDocumentType"; Ref "bomLinkElementType"]);
   ("metadata", Object [("timestamp", Text); ("lifecycles", ListOf (OneOf [Object [("phase", Words ["design"; "pre-build"; "build"; "post-build"; "operations"; "discovery"; "decommission"])] ["phase"]; Object [("name", Text); ("description", Text)] ["name"]])); ("tools", OneOf [Object [("components", ListOf (Ref "component")); ("services", ListOf (Ref "service"))] []; ListOf (Ref "tool")]); ("manufacturer", Ref "organizationalEntity"); ("authors", ListOf (Ref "organizationalContact")); ("component", Ref "component"); ("manufacture", Ref "organizationalEntity"); ("supplier", Ref "organizationalEntity"); ("licenses", Ref "licenseChoice"); ("properties", ListOf (Ref "property"))] []);
   ("tool", Object [("vendor", Text); ("name", Text); ("version", Ref "version"); ("hashes", ListOf (Ref "hash")); ("externalReferences", ListOf (Ref "externalReference"))] []);
   ("organizationalEntity", Object [("bom-ref", Ref "refType"); ("name", Text); ("address", Ref "postalAddress"); ("url", ListOf (Text)); ("contact", ListOf (Ref "organizationalContact"))] []);
   ("organizationalContact", Object [("bom-ref", Ref "refType"); ("name", Text); ("email", Text); ("phone", Text)] []);
   ("component", Object [("type", Words ["application"; "framework"; "library"; "container"; "platform"; "operating-system"; "device"; "device-driver"; "firmware"; "file"; "machine-learning-model"; "data"; "cryptographic-asset"]); ("mime-type", Text); ("bom-ref", Ref "refType"); ("supplier", Ref "organizationalEntity"); ("manufacturer", Ref "organizationalEntity"); ("authors", ListOf (Ref "organizationalContact")); ("author", Text); ("publisher", Text); ("group", Text); ("name", Text); ("version", Ref "version"); ("description", Text); ("scope", Words ["required"; "optional"; "excluded"]); ("hashes", ListOf (Ref "hash")); ("licenses", Ref "licenseChoice"); ("copyright", Text); ("cpe", Text); ("purl", Text); ("omniborId", ListOf (Text)); ("swhid", ListOf (Text)); ("swid", Ref "swid"); ("modified", Truth); ("pedigree", Object [("ancestors", ListOf (Ref "component")); ("descendants", ListOf (Ref "component")); ("variants", ListOf (Ref "component")); ("commits", ListOf (Ref "commit")); ("patches", ListOf (Ref "patch")); ("notes", Text)] []); ("externalReferences", ListOf (Ref "externalReference")); ("components", ListOf (Ref "component")); ("evidence", Ref "componentEvidence"); ("releaseNotes", Ref "releaseNotes"); ("modelCard", Ref "modelCard"); ("data", ListOf (Ref "componentData")); ("cryptoProperties", Ref "cryptoProperties"); ("properties", ListOf (Ref "property")); ("tags", Ref "tags"); ("signature", Ref "signature")] ["type"; "name"]);
   ("swid", Object [("tagId", Text); ("name", Text); ("version", Text); ("tagVersion", Whole); ("patch", Truth); ("text", Ref "attachment"); ("url", Text)] ["tagId"; "name"]);
   ("attachment", Object [("contentType", Text); ("encoding", Words ["base64"]); ("content", Text)] ["content"]);
   ("hash", Object [("alg", Ref "hash-alg"); ("content", Ref "hash-content")] ["alg"; "content"]);
   ("hash-alg", Words ["MD5"; "SHA-1"; "SHA-256"; "SHA-384"; "SHA-512"; "SHA3-256"; "SHA3-384"; "SHA3-512"; "BLAKE2b-256"; "BLAKE2b-384"; "BLAKE2b-512"; "BLAKE3"]);
   ("hash-content", Text);
   ("license", Object [("bom-ref", Ref "refType"); ("id", Text); ("name", Text); ("acknowledgement", Ref "licenseAcknowledgementEnumeration"); ("text", Ref "attachment"); ("url", Text); ("licensing", Object [("altIds", ListOf (Text)); ("licensor", Object [("organization", Ref "organizationalEntity"); ("individual", Ref "organizationalContact")] []); ("licensee", Object [("organization", Ref "organizationalEntity"); ("individual", Ref "organizationalContact")] []); ("purchaser", Object [("organization", Ref "organizationalEntity"); ("individual", Ref "organizationalContact")] []); ("purchaseOrder", Text); ("licenseTypes", ListOf (Words ["academic"; "appliance"; "client-access"; "concurrent-user"; "core-points"; "custom-metric"; "device"; "evaluation"; "named-user"; "node-locked"; "oem"; "perpetual"; "processor-points"; "subscription"; "user"; "other"])); ("lastRenewal", Text); ("expiration", Text)] []); ("properties", ListOf (Ref "property"))] []);
   ("licenseAcknowledgementEnumeration", Words ["declared"; "concluded"]);
   ("licenseChoice", OneOf [ListOf (Object [("license", Ref "license")] ["license"]); ListOf (Object [("expression", Text); ("acknowledgement", Ref "licenseAcknowledgementEnumeration"); ("bom-ref", Ref "refType")] ["expression"])]);
   ("commit", Object [("uid", Text); ("url", Text); ("author", Ref "identifiableAction"); ("committer", Ref "identifiableAction"); ("message", Text)] []);
   ("patch", Object [("type", Words ["unofficial"; "monkey"; "backport"; "cherry-pick"]); ("diff", Ref "diff"); ("resolves", ListOf (Ref "issue"))] ["type"]);
   ("diff", Object [("text", Ref "attachment"); ("url", Text)] []);
   ("issue", Object [("type", Words ["defect"; "enhancement"; "security"]); ("id", Text); ("name", Text); ("description", Text); ("source", Object [("name", Text); ("url", Text)] []); ("references", ListOf (Text))] ["type"]);
   ("identifiableAction", Object [("timestamp", Text); ("name", Text); ("email", Text)] []);
   ("externalReference", Object [("url", OneOf [Text; Ref "bomLink"]); ("comment", Text); ("type", Words ["vcs"; "issue-tracker"; "website"; "advisories"; "bom"; "mailing-list"; "social"; "chat"; "documentation"; "support"; "source-distribution"; "distribution"; "distribution-intake"; "license"; "build-meta"; "build-system"; "release-notes"; "security-contact"; "model-card"; "log"; "configuration"; "evidence"; "formulation"; "attestation"; "threat-model"; "adversary-model"; "risk-assessment"; "vulnerability-assertion"; "exploitability-statement"; "pentest-report"; "static-analysis-report"; "dynamic-analysis-report"; "runtime-analysis-report"; "component-analysis-report"; "maturity-report"; "certification-report"; "codified-infrastructure"; "quality-metrics"; "poam"; "electronic-signature"; "digital-signature"; "rfc-9116"; "other"]); ("hashes", ListOf (Ref "hash"))] ["url"; "type"]);
   ("dependency", Object [("ref", Ref "refLinkType"); ("dependsOn", ListOf (Ref "refLinkType")); ("provides", ListOf (Ref "refLinkType"))] ["ref"]);
   ("service", Object [("bom-ref", Ref "refType"); ("provider", Ref "organizationalEntity"); ("group", Text); ("name", Text); ("version", Ref "version"); ("description", Text); ("endpoints", ListOf (Text)); ("authenticated", Truth); ("x-trust-boundary", Truth); ("trustZone", Text); ("data", ListOf (Ref "serviceData")); ("licenses", Ref "licenseChoice"); ("externalReferences", ListOf (Ref "externalReference")); ("services", ListOf (Ref "service")); ("releaseNotes", Ref "releaseNotes"); ("properties", ListOf (Ref "property")); ("tags", Ref "tags"); ("signature", Ref "signature")] ["name"]);
   ("serviceData", Object [("flow", Ref "dataFlowDirection"); ("classification", Ref "dataClassification"); ("name", Text); ("description", Text); ("governance", Ref "dataGovernance"); ("source", ListOf (OneOf [Text; Ref "bomLinkElementType"])); ("destination", ListOf (OneOf [Text; Ref "bomLinkElementType"]))] ["flow"; "classification"]);
   ("dataFlowDirection", Words ["inbound"; "outbound"; "bi-directional"; "unknown"]);
   ("copyright", Object [("text", Text)] ["text"]);
   ("componentEvidence", Object [("identity", OneOf [ListOf (Ref "componentIdentityEvidence"); Ref "componentIdentityEvidence"]); ("occurrences", ListOf (Object [("bom-ref", Ref "refType"); ("location", Text); ("line", Whole); ("offset", Whole); ("symbol", Text); ("additionalContext", Text)] ["location"])); ("callstack", Object [("frames", ListOf (Object [("package", Text); ("module", Text); ("function", Text); ("parameters", ListOf (Text)); ("line", Whole); ("column", Whole); ("fullFilename", Text)] ["module"]))] []); ("licenses", Ref "licenseChoice"); ("copyright", ListOf (Ref "copyright"))] []);
   ("compositions", Object [("bom-ref", Ref "refType"); ("aggregate", Ref "aggregateType"); ("assemblies", ListOf (OneOf [Ref "refLinkType"; Ref "bomLinkElementType"])); ("dependencies", ListOf (Text)); ("vulnerabilities", ListOf (Text)); ("signature", Ref "signature")] ["aggregate"]);
   ("aggregateType", Words ["complete"; "incomplete"; "incomplete_first_party_only"; "incomplete_first_party_proprietary_only"; "incomplete_first_party_opensource_only"; "incomplete_third_party_only"; "incomplete_third_party_proprietary_only"; "incomplete_third_party_opensource_only"; "unknown"; "not_specified"]);
   ("property", Object [("name", Text); ("value", Text)] ["name"]);
   ("localeType", Text);
   ("releaseType", Text);
   ("note", Object [("locale", Ref "localeType"); ("text", Ref "attachment")] ["text"]);
   ("releaseNotes", Object [("type", Ref "releaseType"); ("title", Text); ("featuredImage", Text); ("socialImage", Text); ("description", Text); ("timestamp", Text); ("aliases", ListOf (Text)); ("tags", Ref "tags"); ("resolves", ListOf (Ref "issue")); ("notes", ListOf (Ref "note")); ("properties", ListOf (Ref "property"))] ["type"]);
   ("advisory", Object [("title", Text); ("url", Text)] ["url"]);
   ("cwe", Whole);
   ("severity", Words ["critical"; "high"; "medium"; "low"; "info"; "none"; "unknown"]);
   ("scoreMethod", Words ["CVSSv2"; "CVSSv3"; "CVSSv31"; "CVSSv4"; "OWASP"; "SSVC"; "other"]);
   ("impactAnalysisState", Words ["resolved"; "resolved_with_pedigree"; "exploitable"; "in_triage"; "false_positive"; "not_affected"]);
   ("impactAnalysisJustification", Words ["code_not_present"; "code_not_reachable"; "requires_configuration"; "requires_dependency"; "requires_environment"; "protected_by_compiler"; "protected_at_runtime"; "protected_at_perimeter"; "protected_by_mitigating_control"]);
   ("rating", Object [("source", Ref "vulnerabilitySource"); ("score", Number); ("severity", Ref "severity"); ("method", Ref "scoreMethod"); ("vector", Text); ("justification", Text)] []);
   ("vulnerabilitySource", Object [("url", Text); ("name", Text)] []);
   ("vulnerability", Object [("bom-ref", Ref "refType"); ("id", Text); ("source", Ref "vulnerabilitySource"); ("references", ListOf (Object [("id", Text); ("source", Ref "vulnerabilitySource")] ["id"; "source"])); ("ratings", ListOf (Ref "rating")); ("cwes", ListOf (Ref "cwe")); ("description", Text); ("detail", Text); ("recommendation", Text); ("workaround", Text); ("proofOfConcept", Object [("reproductionSteps", Text); ("environment", Text); ("supportingMaterial", ListOf (Ref "attachment"))] []); ("advisories", ListOf (Ref "advisory")); ("created", Text); ("published", Text); ("updated", Text); ("rejected", Text); ("credits", Object [("organizations", ListOf (Ref "organizationalEntity")); ("individuals", ListOf (Ref "organizationalContact"))] []); ("tools", OneOf [Object [("components", ListOf (Ref "component")); ("services", ListOf (Ref "service"))] []; ListOf (Ref "tool")]); ("analysis", Object [("state", Ref "impactAnalysisState"); ("justification", Ref "impactAnalysisJustification"); ("response", ListOf (Words ["can_not_fix"; "will_not_fix"; "update"; "rollback"; "workaround_available"])); ("detail", Text); ("firstIssued", Text); ("lastUpdated", Text)] []); ("affects", ListOf (Object [("ref", OneOf [Ref "refLinkType"; Ref "bomLinkElementType"]); ("versions", ListOf (Object [("version", Ref "version"); ("range", Ref "versionRange"); ("status", Ref "affectedStatus")] []))] ["ref"])); ("properties", ListOf (Ref "property"))] []);
   ("affectedStatus", Words ["affected"; "unaffected"; "unknown"]);
   ("version", Text);
   ("versionRange", Filled);
   ("range", Ref "versionRange");
   ("annotations", Object [("bom-ref", Ref "refType"); ("subjects", ListOf (OneOf [Ref "refLinkType"; Ref "bomLinkElementType"])); ("annotator", Object [("organization", Ref "organizationalEntity"); ("individual", Ref "organizationalContact"); ("component", Ref "component"); ("service", Ref "service")] []); ("timestamp", Text); ("text", Text); ("signature", Ref "signature")] ["subjects"; "annotator"; "timestamp"; "text"]);
   ("modelCard", Object [("bom-ref", Ref "refType"); ("modelParameters", Object [("approach", Object [("type", Words ["supervised"; "unsupervised"; "reinforcement-learning"; "semi-supervised"; "self-supervised"])] []); ("task", Text); ("architectureFamily", Text); ("modelArchitecture", Text); ("datasets", ListOf (OneOf [Ref "componentData"; Object [("ref", OneOf [Ref "refLinkType"; Ref "bomLinkElementType"])] []])); ("inputs", ListOf (Ref "inputOutputMLParameters")); ("outputs", ListOf (Ref "inputOutputMLParameters"))] []); ("quantitativeAnalysis", Object [("performanceMetrics", ListOf (Ref "performanceMetric")); ("graphics", Ref "graphicsCollection")] []); ("considerations", Object [("users", ListOf (Text)); ("useCases", ListOf (Text)); ("technicalLimitations", ListOf (Text)); ("performanceTradeoffs", ListOf (Text)); ("ethicalConsiderations", ListOf (Ref "risk")); ("environmentalConsiderations", Ref "environmentalConsiderations"); ("fairnessAssessments", ListOf (Ref "fairnessAssessment"))] []); ("properties", ListOf (Ref "property"))] []);
   ("inputOutputMLParameters", Object [("format", Text)] []);
   ("componentData", Object [("bom-ref", Ref "refType"); ("type", Words ["source-code"; "configuration"; "dataset"; "definition"; "other"]); ("name", Text); ("contents", Object [("attachment", Ref "attachment"); ("url", Text); ("properties", ListOf (Ref "property"))] []); ("classification", Ref "dataClassification"); ("sensitiveData", ListOf (Text)); ("graphics", Ref "graphicsCollection"); ("description", Text); ("governance", Ref "dataGovernance")] ["type"]);
   ("dataGovernance", Object [("custodians", ListOf (Ref "dataGovernanceResponsibleParty")); ("stewards", ListOf (Ref "dataGovernanceResponsibleParty")); ("owners", ListOf (Ref "dataGovernanceResponsibleParty"))] []);
   ("dataGovernanceResponsibleParty", Object [("organization", Ref "organizationalEntity"); ("contact", Ref "organizationalContact")] []);
   ("graphicsCollection", Object [("description", Text); ("collection", ListOf (Ref "graphic"))] []);
   ("graphic", Object [("name", Text); ("image", Ref "attachment")] []);
   ("performanceMetric", Object [("type", Text); ("value", Text); ("slice", Text); ("confidenceInterval", Object [("lowerBound", Text); ("upperBound", Text)] [])] []);
   ("risk", Object [("name", Text); ("mitigationStrategy", Text)] []);
   ("fairnessAssessment", Object [("groupAtRisk", Text); ("benefits", Text); ("harms", Text); ("mitigationStrategy", Text)] []);
   ("dataClassification", Text);
   ("environmentalConsiderations", Object [("energyConsumptions", ListOf (Ref "energyConsumption")); ("properties", ListOf (Ref "property"))] []);
   ("energyConsumption", Object [("activity", Words ["design"; "data-collection"; "data-preparation"; "training"; "fine-tuning"; "validation"; "deployment"; "inference"; "other"]); ("energyProviders", ListOf (Ref "energyProvider")); ("activityEnergyCost", Ref "energyMeasure"); ("co2CostEquivalent", Ref "co2Measure"); ("co2CostOffset", Ref "co2Measure"); ("properties", ListOf (Ref "property"))] ["activity"; "energyProviders"; "activityEnergyCost"]);
   ("energyMeasure", Object [("value", Number); ("unit", Words ["kWh"])] ["value"; "unit"]);
   ("co2Measure", Object [("value", Number); ("unit", Words ["tCO2eq"])] ["value"; "unit"]);
   ("energyProvider", Object [("bom-ref", Ref "refType"); ("description", Text); ("organization", Ref "organizationalEntity"); ("energySource", Words ["coal"; "oil"; "natural-gas"; "nuclear"; "wind"; "solar"; "geothermal"; "hydropower"; "biofuel"; "unknown"; "other"]); ("energyProvided", Ref "energyMeasure"); ("externalReferences", ListOf (Ref "externalReference"))] ["organization"; "energySource"; "energyProvided"]);
   ("postalAddress", Object [("bom-ref", Ref "refType"); ("country", Text); ("region", Text); ("locality", Text); ("postOfficeBoxNumber", Text); ("postalCode", Text); ("streetAddress", Text)] []);
   ("formula", Object [("bom-ref", Ref "refType"); ("components", ListOf (Ref "component")); ("services", ListOf (Ref "service")); ("workflows", ListOf (Ref "workflow")); ("properties", ListOf (Ref "property"))] []);
   ("workflow", Object [("bom-ref", Ref "refType"); ("uid", Text); ("name", Text); ("description", Text); ("resourceReferences", ListOf (Ref "resourceReferenceChoice")); ("tasks", ListOf (Ref "task")); ("taskDependencies", ListOf (Ref "dependency")); ("taskTypes", ListOf (Ref "taskType")); ("trigger", Ref "trigger"); ("steps", ListOf (Ref "step")); ("inputs", ListOf (Ref "inputType")); ("outputs", ListOf (Ref "outputType")); ("timeStart", Text); ("timeEnd", Text); ("workspaces", ListOf (Ref "workspace")); ("runtimeTopology", ListOf (Ref "dependency")); ("properties", ListOf (Ref "property"))] ["bom-ref"; "uid"; "taskTypes"]);
   ("task", Object [("bom-ref", Ref "refType"); ("uid", Text); ("name", Text); ("description", Text); ("resourceReferences", ListOf (Ref "resourceReferenceChoice")); ("taskTypes", ListOf (Ref "taskType")); ("trigger", Ref "trigger"); ("steps", ListOf (Ref "step")); ("inputs", ListOf (Ref "inputType")); ("outputs", ListOf (Ref "outputType")); ("timeStart", Text); ("timeEnd", Text); ("workspaces", ListOf (Ref "workspace")); ("runtimeTopology", ListOf (Ref "dependency")); ("properties", ListOf (Ref "property"))] ["bom-ref"; "uid"; "taskTypes"]);
   ("step", Object [("name", Text); ("description", Text); ("commands", ListOf (Ref "command")); ("properties", ListOf (Ref "property"))] []);
   ("command", Object [("executed", Text); ("properties", ListOf (Ref "property"))] []);
   ("workspace", Object [("bom-ref", Ref "refType"); ("uid", Text); ("name", Text); ("aliases", ListOf (Text)); ("description", Text); ("resourceReferences", ListOf (Ref "resourceReferenceChoice")); ("accessMode", Words ["read-only"; "read-write"; "read-write-once"; "write-once"; "write-only"]); ("mountPath", Text); ("managedDataType", Text); ("volumeRequest", Text); ("volume", Ref "volume"); ("properties", ListOf (Ref "property"))] ["bom-ref"; "uid"]);
   ("volume", Object [("uid", Text); ("name", Text); ("mode", Words ["filesystem"; "block"]); ("path", Text); ("sizeAllocated", Text); ("persistent", Truth); ("remote", Truth); ("properties", ListOf (Ref "property"))] []);
   ("trigger", Object [("bom-ref", Ref "refType"); ("uid", Text); ("name", Text); ("description", Text); ("resourceReferences", ListOf (Ref "resourceReferenceChoice")); ("type", Words ["manual"; "api"; "webhook"; "scheduled"]); ("event", Ref "event"); ("conditions", ListOf (Ref "condition")); ("timeActivated", Text); ("inputs", ListOf (Ref "inputType")); ("outputs", ListOf (Ref "outputType")); ("properties", ListOf (Ref "property"))] ["type"; "bom-ref"; "uid"]);
   ("event", Object [("uid", Text); ("description", Text); ("timeReceived", Text); ("data", Ref "attachment"); ("source", Ref "resourceReferenceChoice"); ("target", Ref "resourceReferenceChoice"); ("properties", ListOf (Ref "property"))] []);
   ("inputType", Object [("source", Ref "resourceReferenceChoice"); ("target", Ref "resourceReferenceChoice"); ("resource", Ref "resourceReferenceChoice"); ("parameters", ListOf (Ref "parameter")); ("environmentVars", ListOf (OneOf [Ref "property"; Text])); ("data", Ref "attachment"); ("properties", ListOf (Ref "property"))] []);
   ("outputType", Object [("type", Words ["artifact"; "attestation"; "log"; "evidence"; "metrics"; "other"]); ("source", Ref "resourceReferenceChoice"); ("target", Ref "resourceReferenceChoice"); ("resource", Ref "resourceReferenceChoice"); ("data", Ref "attachment"); ("environmentVars", ListOf (OneOf [Ref "property"; Text])); ("properties", ListOf (Ref "property"))] []);
   ("resourceReferenceChoice", Object [("ref", OneOf [Ref "refLinkType"; Ref "bomLinkElementType"]); ("externalReference", Ref "externalReference")] []);
   ("condition", Object [("description", Text); ("expression", Text); ("properties", ListOf (Ref "property"))] []);
   ("taskType", Words ["copy"; "clone"; "lint"; "scan"; "merge"; "build"; "test"; "deliver"; "deploy"; "release"; "clean"; "other"]);
   ("parameter", Object [("name", Text); ("value", Text); ("dataType", Text)] []);
   ("componentIdentityEvidence", Object [("field", Words ["group"; "name"; "version"; "purl"; "cpe"; "omniborId"; "swhid"; "swid"; "hash"]); ("confidence", Number); ("concludedValue", Text); ("methods", ListOf (Object [("technique", Words ["source-code-analysis"; "binary-analysis"; "manifest-analysis"; "ast-fingerprint"; "hash-comparison"; "instrumentation"; "dynamic-analysis"; "filename"; "attestation"; "other"]); ("confidence", Number); ("value", Text)] ["technique"; "confidence"])); ("tools", ListOf (OneOf [Ref "refLinkType"; Ref "bomLinkElementType"]))] ["field"]);
   ("standard", Object [("bom-ref", Ref "refType"); ("name", Text); ("version", Text); ("description", Text); ("owner", Text); ("requirements", ListOf (Object [("bom-ref", Ref "refType"); ("identifier", Text); ("title", Text); ("text", Text); ("descriptions", ListOf (Text)); ("openCre", ListOf (Text)); ("parent", Ref "refLinkType"); ("properties", ListOf (Ref "property")); ("externalReferences", ListOf (Ref "externalReference"))] [])); ("levels", ListOf (Object [("bom-ref", Ref "refType"); ("identifier", Text); ("title", Text); ("description", Text); ("requirements", ListOf (Ref "refLinkType"))] [])); ("externalReferences", ListOf (Ref "externalReference")); ("signature", Ref "signature")] []);
   ("signature", Ref "jsf:signature");
   ("cryptoProperties", Object [("assetType", Words ["algorithm"; "certificate"; "protocol"; "related-crypto-material"]); ("algorithmProperties", Object [("primitive", Words ["drbg"; "mac"; "block-cipher"; "stream-cipher"; "signature"; "hash"; "pke"; "xof"; "kdf"; "key-agree"; "kem"; "ae"; "combiner"; "other"; "unknown"]); ("parameterSetIdentifier", Text); ("curve", Text); ("executionEnvironment", Words ["software-plain-ram"; "software-encrypted-ram"; "software-tee"; "hardware"; "other"; "unknown"]); ("implementationPlatform", Words ["generic"; "x86_32"; "x86_64"; "armv7-a"; "armv7-m"; "armv8-a"; "armv8-m"; "armv9-a"; "armv9-m"; "s390x"; "ppc64"; "ppc64le"; "other"; "unknown"]); ("certificationLevel", ListOf (Words ["none"; "fips140-1-l1"; "fips140-1-l2"; "fips140-1-l3"; "fips140-1-l4"; "fips140-2-l1"; "fips140-2-l2"; "fips140-2-l3"; "fips140-2-l4"; "fips140-3-l1"; "fips140-3-l2"; "fips140-3-l3"; "fips140-3-l4"; "cc-eal1"; "cc-eal1+"; "cc-eal2"; "cc-eal2+"; "cc-eal3"; "cc-eal3+"; "cc-eal4"; "cc-eal4+"; "cc-eal5"; "cc-eal5+"; "cc-eal6"; "cc-eal6+"; "cc-eal7"; "cc-eal7+"; "other"; "unknown"])); ("mode", Words ["cbc"; "ecb"; "ccm"; "gcm"; "cfb"; "ofb"; "ctr"; "other"; "unknown"]); ("padding", Words ["pkcs5"; "pkcs7"; "pkcs1v15"; "oaep"; "raw"; "other"; "unknown"]); ("cryptoFunctions", ListOf (Words ["generate"; "keygen"; "encrypt"; "decrypt"; "digest"; "tag"; "keyderive"; "sign"; "verify"; "encapsulate"; "decapsulate"; "other"; "unknown"])); ("classicalSecurityLevel", Whole); ("nistQuantumSecurityLevel", Whole)] []); ("certificateProperties", Object [("subjectName", Text); ("issuerName", Text); ("notValidBefore", Text); ("notValidAfter", Text); ("signatureAlgorithmRef", Ref "refType"); ("subjectPublicKeyRef", Ref "refType"); ("certificateFormat", Text); ("certificateExtension", Text)] []); ("relatedCryptoMaterialProperties", Object [("type", Words ["private-key"; "public-key"; "secret-key"; "key"; "ciphertext"; "signature"; "digest"; "initialization-vector"; "nonce"; "seed"; "salt"; "shared-secret"; "tag"; "additional-data"; "password"; "credential"; "token"; "other"; "unknown"]); ("id", Text); ("state", Words ["pre-activation"; "active"; "suspended"; "deactivated"; "compromised"; "destroyed"]); ("algorithmRef", Ref "refType"); ("creationDate", Text); ("activationDate", Text); ("updateDate", Text); ("expirationDate", Text); ("value", Text); ("size", Whole); ("format", Text); ("securedBy", Ref "securedBy")] []); ("protocolProperties", Object [("type", Words ["tls"; "ssh"; "ipsec"; "ike"; "sstp"; "wpa"; "other"; "unknown"]); ("version", Text); ("cipherSuites", ListOf (Ref "cipherSuite")); ("ikev2TransformTypes", Object [("encr", Ref "cryptoRefArray"); ("prf", Ref "cryptoRefArray"); ("integ", Ref "cryptoRefArray"); ("ke", Ref "cryptoRefArray"); ("esn", Truth); ("auth", Ref "cryptoRefArray")] []); ("cryptoRefArray", Ref "cryptoRefArray")] []); ("oid", Text)] ["assetType"]);
   ("cipherSuite", Object [("name", Text); ("algorithms", ListOf (Ref "refType")); ("identifiers", ListOf (Text))] []);
   ("cryptoRefArray", ListOf (Ref "refType"));
   ("securedBy", Object [("mechanism", Text); ("algorithmRef", Ref "refType")] []);
   ("tags", ListOf (Text));
   ("jsf:signature", OneOf [Object [("signers", ListOf (Ref "jsf:signer"))] []; Object [("chain", ListOf (Ref "jsf:signer"))] []; Ref "jsf:signer"]);
   ("jsf:signer", Object [("algorithm", OneOf [Words ["RS256"; "RS384"; "RS512"; "PS256"; "PS384"; "PS512"; "ES256"; "ES384"; "ES512"; "Ed25519"; "Ed448"; "HS256"; "HS384"; "HS512"]; Text]); ("keyId", Text); ("publicKey", Ref "jsf:publicKey"); ("certificatePath", ListOf (Text)); ("excludes", ListOf (Text)); ("value", Text)] ["algorithm"; "value"]);
   ("jsf:keyType", Words ["EC"; "OKP"; "RSA"]);
   ("jsf:publicKey", Object [("kty", Text); ("crv", Text); ("x", Text); ("y", Text); ("n", Text); ("e", Text)] ["kty"])].

(** /repo/schema/bom-1.7.schema.json, jsf-0.82.schemax.json *)
Definition schema_1_7 : schemas :=
  [("", Object [("$schema", Text); ("bomFormat", Words ["CycloneDX"]); ("specVersion", Text); ("serialNumber", Text); ("version", Whole); ("metadata", Ref "metadata"); ("components", ListOf (Ref "component")); ("services", ListOf (Ref "service")); ("externalReferences", ListOf (Ref "externalReference")); ("dependencies", ListOf (Ref "dependency")); ("compositions", ListOf (Ref "compositions")); ("vulnerabilities", ListOf (Ref "vulnerability")); ("annotations", ListOf (Ref "annotations")); ("formulation", ListOf (Ref "formula")); ("declarations", Object [("assessors", ListOf (Object [("bom-ref", Ref "refType"); ("thirdParty", Truth); ("organization", Ref "organizationalEntity")] [])); ("attestations", ListOf (Object [("summary", Text); ("assessor", Ref "refLinkType"); ("map", ListOf (Object [("requirement", Ref "refLinkType"); ("claims", ListOf (Ref "refLinkType")); ("counterClaims", ListOf (Ref "refLinkType")); ("conformance", Object [("score", Number); ("rationale", Text); ("mitigationStrategies", ListOf (Ref "refLinkType"))] []); ("confidence", Object [("score", Number); ("rationale", Text)] [])] [])); ("signature", Ref "signature")] [])); ("claims", ListOf (Object [("bom-ref", Ref "refType"); ("target", Ref "refLinkType"); ("predicate", Text); ("mitigationStrategies", ListOf (Ref "refLinkType")); ("reasoning", Text); ("evidence", ListOf (Ref "refLinkType")); ("counterEvidence", ListOf (Ref "refLinkType")); ("externalReferences", ListOf (Ref "externalReference")); ("signature", Ref "signature")] [])); ("evidence", ListOf (Object [("bom-ref", Ref "refType"); ("propertyName", Text); ("description", Text); ("data", ListOf (Object [("name", Text); ("contents", Object [("attachment", Ref "attachment"); ("url", Text)] []); ("classification", Ref "dataClassification"); ("sensitiveData", ListOf (Text)); ("governance", Ref "dataGovernance")] [])); ("created", Text); ("expires", Text); ("author", Ref "organizationalContact"); ("reviewer", Ref "organizationalContact"); ("signature", Ref "signature")] [])); ("targets", Object [("organizations", ListOf (Ref "organizationalEntity")); ("components", ListOf (Ref "component")); ("services", ListOf (Ref "service"))] []); ("affirmation", Object [("statement", Text); ("signatories", ListOf (Object [("name", Text); ("role", Text); ("signature", Ref "signature"); ("organization", Ref "organizationalEntity"); ("externalReference", Ref "externalReference")] [])); ("signature", Ref "signature")] []); ("signature", Ref "signature")] []); ("definitions", Object [("standards", ListOf (Ref "standard")); ("patents", ListOf (OneOf [Ref "patent"; Ref "patentFamily"]))] []); ("citations", ListOf (Ref "citation")); ("properties", ListOf (Ref "property")); ("signature", Ref "signature")] ["bomFormat"; "specVersion"]);
   ("refType", Filled);
   ("refLinkType", Ref "refType");
   ("bomLinkDocumentType", Text);
   ("bomLinkElementType", Text);
   ("bomLink", OneOf [Ref "bomLinkDocumentType"; Ref "bomLinkElementType"]);
   ("metadata", Object [("timestamp", Text); ("lifecycles", ListOf (OneOf [Object [("phase", Words ["design"; "pre-build"; "build"; "post-build"; "operations"; "discovery"; "decommission"])] ["phase"]; Object [("name", Text); ("description", Text)] ["name"]])); ("tools", OneOf [Object [("components", ListOf (Ref "component")); ("services", ListOf (Ref "service"))] []; ListOf (Ref "tool")]); ("manufacturer", Ref "organizationalEntity"); ("authors", ListOf (Ref "organizationalContact")); ("component", Ref "component"); ("manufacture", Ref "organizationalEntity"); ("supplier", Ref "organizationalEntity"); ("licenses", Ref "licenseChoice"); ("properties", ListOf (Ref "property")); ("distributionConstraints", Object [("tlp", Ref "tlpClassification")] [])] []);
   ("tlpClassification", Words ["CLEAR"; "GREEN"; "AMBER"; "AMBER_AND_STRICT"; "RED"]);
   ("tool", Object [("vendor", Text); ("name", Text); ("version", Ref "version"); ("hashes", ListOf (Ref "hash")); ("externalReferences", ListOf (Ref "externalReference"))] []);
   ("organizationalEntity", Object [("bom-ref", Ref "refType"); ("name", Text); ("address", Ref "postalAddress"); ("url", ListOf (Text)); ("contact", ListOf (Ref "organizationalContact"))] []);
   ("organizationalContact", Object [("bom-ref", Ref "refType"); ("name", Text); ("email", Text); ("phone", Text)] []);
   ("component", Object [("type", Words ["application"; "framework"; "library"; "container"; "platform"; "operating-system"; "device"; "device-driver"; "firmware"; "file"; "machine-learning-model"; "data"; "cryptographic-asset"]); ("mime-type", Text); ("bom-ref", Ref "refType"); ("supplier", Ref "organizationalEntity"); ("manufacturer", Ref "organizationalEntity"); ("authors", ListOf (Ref "organizationalContact")); ("author", Text); ("publisher", Text); ("group", Text); ("name", Text); ("version", Ref "version"); ("versionRange", Ref "versionRange"); ("isExternal", Truth); ("description", Text); ("scope", Words ["required"; "optional"; "excluded"]); ("hashes", ListOf (Ref "hash")); ("licenses", Ref "licenseChoice"); ("copyright", Text); ("patentAssertions", Ref "patentAssertions"); ("cpe", Text); ("purl", Text); ("omniborId", ListOf (Text)); ("swhid", ListOf (Text)); ("swid", Ref "swid"); ("modified", Truth); ("pedigree", Object [("ancestors", ListOf (Ref "component")); ("descendants", ListOf (Ref "component")); ("variants", ListOf (Ref "component")); ("commits", ListOf (Ref "commit")); ("patches", ListOf (Ref "patch")); ("notes", Text)] []); ("externalReferences", ListOf (Ref "externalReference")); ("components", ListOf (Ref "component")); ("evidence", Ref "componentEvidence"); ("releaseNotes", Ref "releaseNotes"); ("modelCard", Ref "modelCard"); ("data", ListOf (Ref "componentData")); ("cryptoProperties", Ref "cryptoProperties"); ("properties", ListOf (Ref "property")); ("tags", Ref "tags"); ("signature", Ref "signature")] ["type"; "name"]);
   ("swid", Object [("tagId", Text); ("name", Text); ("version", Text); ("tagVersion", Whole); ("patch", Truth); ("text", Ref "attachment"); ("url", Text)] ["tagId"; "name"]);
   ("attachment", Object [("contentType", Text); ("encoding", Words ["base64"]); ("content", Text)] ["content"]);
   ("hash", Object [("alg", Ref "hash-alg"); ("content", Ref "hash-content")] ["alg"; "content"]);
   ("hash-alg", Words ["MD5"; "SHA-1"; "SHA-256"; "SHA-384"; "SHA-512"; "SHA3-256"; "SHA3-384"; "SHA3-512"; "BLAKE2b-256"; "BLAKE2b-384"; "BLAKE2b-512"; "BLAKE3"; "Streebog-256"; "Streebog-512"]);
   ("hash-content", Text);
   ("licensing", Object [("altIds", ListOf (Text)); ("licensor", Object [("organization", Ref "organizationalEntity"); ("individual", Ref "organizationalContact")] []); ("licensee", Object [("organization", Ref "organizationalEntity"); ("individual", Ref "organizationalContact")] []); ("purchaser", Object [("organization", Ref "organizationalEntity"); ("individual", Ref "organizationalContact")] []); ("purchaseOrder", Text); ("licenseTypes", ListOf (Words ["academic"; "appliance"; "client-access"; "concurrent-user"; "core-points"; "custom-metric"; "device"; "evaluation"; "named-user"; "node-locked"; "oem"; "perpetual"; "processor-points"; "subscription"; "user"; "other"])); ("lastRenewal", Text); ("expiration", Text)] []);
   ("license", Object [("bom-ref", Ref "refType"); ("id", Text); ("name", Text); ("acknowledgement", Ref "licenseAcknowledgementEnumeration"); ("text", Ref "attachment"); ("url", Text); ("licensing", Ref "licensing"); ("properties", ListOf (Ref "property"))] []);
   ("licenseAcknowledgementEnumeration", Words ["declared"; "concluded"]);
   ("licenseChoice", ListOf (OneOf [Object [("license", Ref "license")] ["license"]; Object [("expression", Text); ("expressionDetails", ListOf (Object [("licenseIdentifier", Text); ("bom-ref", Ref "refType"); ("text", Ref "attachment"); ("url", Text)] ["licenseIdentifier"])); ("acknowledgement", Ref "licenseAcknowledgementEnumeration"); ("bom-ref", Ref "refType"); ("licensing", Ref "licensing"); ("properties", ListOf (Ref "property"))] ["expression"]]));
   ("commit", Object [("uid", Text); ("url", Text); ("author", Ref "identifiableAction"); ("committer", Ref "identifiableAction"); ("message", Text)] []);
   ("patch", Object [("type", Words ["unofficial"; "monkey"; "backport"; "cherry-pick"]); ("diff", Ref "diff"); ("resolves", ListOf (Ref "issue"))] ["type"]);
   ("diff", Object [("text", Ref "attachment"); ("url", Text)] []);
   ("issue", Object [("type", Words ["defect"; "enhancement"; "security"]); ("id", Text); ("name", Text); ("description", Text); ("source", Object [("name", Text); ("url", Text)] []); ("references", ListOf (Text))] ["type"]);
   ("identifiableAction", Object [("timestamp", Text); ("name", Text); ("email", Text)] []);
   ("externalReference", Object [("url", OneOf [Text; Ref "bomLink"]); ("comment", Text); ("type", Words ["vcs"; "issue-tracker"; "website"; "advisories"; "bom"; "mailing-list"; "social"; "chat"; "documentation"; "support"; "source-distribution"; "distribution"; "distribution-intake"; "license"; "build-meta"; "build-system"; "release-notes"; "security-contact"; "model-card"; "log"; "configuration"; "evidence"; "formulation"; "attestation"; "threat-model"; "adversary-model"; "risk-assessment"; "vulnerability-assertion"; "exploitability-statement"; "pentest-report"; "static-analysis-report"; "dynamic-analysis-report"; "runtime-analysis-report"; "component-analysis-report"; "maturity-report"; "certification-report"; "codified-infrastructure"; "quality-metrics"; "poam"; "electronic-signature"; "digital-signature"; "rfc-9116"; "patent"; "patent-family"; "patent-assertion"; "citation"; "other"]); ("hashes", ListOf (Ref "hash")); ("properties", ListOf (Ref "property"))] ["url"; "type"]);
   ("dependency", Object [("ref", Ref "refLinkType"); ("dependsOn", ListOf (Ref "refLinkType")); ("provides", ListOf (Ref "refLinkType"))] ["ref"]);
   ("service", Object [("bom-ref", Ref "refType"); ("provider", Ref "organizationalEntity"); ("group", Text); ("name", Text); ("version", Ref "version"); ("description", Text); ("endpoints", ListOf (Text)); ("authenticated", Truth); ("x-trust-boundary", Truth); ("trustZone", Text); ("data", ListOf (Ref "serviceData")); ("licenses", Ref "licenseChoice"); ("patentAssertions", Ref "patentAssertions"); ("externalReferences", ListOf (Ref "externalReference")); ("services", ListOf (Ref "service")); ("releaseNotes", Ref "releaseNotes"); ("properties", ListOf (Ref "property")); ("tags", Ref "tags"); ("signature", Ref "signature")] ["name"]);
   ("serviceData", Object [("flow", Ref "dataFlowDirection"); ("classification", Ref "dataClassification"); ("name", Text); ("description", Text); ("governance", Ref "dataGovernance"); ("source", ListOf (OneOf [Text; Ref "bomLinkElementType"])); ("destination", ListOf (OneOf [Text; Ref "bomLinkElementType"]))] ["flow"; "classification"]);
   ("dataFlowDirection", Words ["inbound"; "outbound"; "bi-directional"; "unknown"]);
   ("copyright", Object [("text", Text)] ["text"]);
   ("componentEvidence", Object [("identity", OneOf [ListOf (Ref "componentIdentityEvidence"); Ref "componentIdentityEvidence"]); ("occurrences", ListOf (Object [("bom-ref", Ref "refType"); ("location", Text); ("line", Whole); ("offset", Whole); ("symbol", Text); ("additionalContext", Text)] ["location"])); ("callstack", Object [("frames", ListOf (Object [("package", Text); ("module", Text); ("function", Text); ("parameters", ListOf (Text)); ("line", Whole); ("column", Whole); ("fullFilename", Text)] ["module"]))] []); ("licenses", Ref "licenseChoice"); ("copyright", ListOf (Ref "copyright"))] []);
   ("compositions", Object [("bom-ref", Ref "refType"); ("aggregate", Ref "aggregateType"); ("assemblies", ListOf (OneOf [Ref "refLinkType"; Ref "bomLinkElementType"])); ("dependencies", ListOf (Text)); ("vulnerabilities", ListOf (Text)); ("signature", Ref "signature")] ["aggregate"]);
   ("aggregateType", Words ["complete"; "incomplete"; "incomplete_first_party_only"; "incomplete_first_party_proprietary_only"; "incomplete_first_party_opensource_only"; "incomplete_third_party_only"; "incomplete_third_party_proprietary_only"; "incomplete_third_party_opensource_only"; "unknown"; "not_specified"]);
   ("property", Object [("name", Text); ("value", Text)] ["name"]);
   ("localeType", Text);
   ("releaseType", Text);
   ("note", Object [("locale", Ref "localeType"); ("text", Ref "attachment")] ["text"]);
   ("releaseNotes", Object [("type", Ref "releaseType"); ("title", Text); ("featuredImage", Text); ("socialImage", Text); ("description", Text); ("timestamp", Text); ("aliases", ListOf (Text)); ("tags", Ref "tags"); ("resolves", ListOf (Ref "issue")); ("notes", ListOf (Ref "note")); ("properties", ListOf (Ref "property"))] ["type"]);
   ("advisory", Object [("title", Text); ("url", Text)] ["url"]);
   ("cwe", Whole);
   ("severity", Words ["critical"; "high"; "medium"; "low"; "info"; "none"; "unknown"]);
   ("scoreMethod", Words ["CVSSv2"; "CVSSv3"; "CVSSv31"; "CVSSv4"; "OWASP"; "SSVC"; "other"]);
   ("impactAnalysisState", Words ["resolved"; "resolved_with_pedigree"; "exploitable"; "in_triage"; "false_positive"; "not_affected"]);
   ("impactAnalysisJustification", Words ["code_not_present"; "code_not_reachable"; "requires_configuration"; "requires_dependency"; "requires_environment"; "protected_by_compiler"; "protected_at_runtime"; "protected_at_perimeter"; "protected_by_mitigating_control"]);
   ("rating", Object [("source", Ref "vulnerabilitySource"); ("score", Number); ("severity", Ref "severity"); ("method", Ref "scoreMethod"); ("vector", Text); ("justification", Text)] []);
   ("vulnerabilitySource", Object [("url", Text); ("name", Text)] []);
   ("vulnerability", Object [("bom-ref", Ref "refType"); ("id", Text); ("source", Ref "vulnerabilitySource"); ("references", ListOf (Object [("id", Text); ("source", Ref "vulnerabilitySource")] ["id"; "source"])); ("ratings", ListOf (Ref "rating")); ("cwes", ListOf (Ref "cwe")); ("description", Text); ("detail", Text); ("recommendation", Text); ("workaround", Text); ("proofOfConcept", Object [("reproductionSteps", Text); ("environment", Text); ("supportingMaterial", ListOf (Ref "attachment"))] []); ("advisories", ListOf (Ref "advisory")); ("created", Text); ("published", Text); ("updated", Text); ("rejected", Text); ("credits", Object [("organizations", ListOf (Ref "organizationalEntity")); ("individuals", ListOf (Ref "organizationalContact"))] []); ("tools", OneOf [Object [("components", ListOf (Ref "component")); ("services", ListOf (Ref "service"))] []; ListOf (Ref "tool")]); ("analysis", Object [("state", Ref "impactAnalysisState"); ("justification", Ref "impactAnalysisJustification"); ("response", ListOf (Words ["can_not_fix"; "will_not_fix"; "update"; "rollback"; "workaround_available"])); ("detail", Text); ("firstIssued", Text); ("lastUpdated", Text)] []); ("affects", ListOf (Object [("ref", OneOf [Ref "refLinkType"; Ref "bomLinkElementType"]); ("versions", ListOf (Object [("version", Ref "version"); ("range", Ref "versionRange"); ("status", Ref "affectedStatus")] []))] ["ref"])); ("properties", ListOf (Ref "property"))] []);
   ("affectedStatus", Words ["affected"; "unaffected"; "unknown"]);
   ("version", Text);
   ("versionRange", Filled);
   ("range", Ref "versionRange");
   ("annotations", Object [("bom-ref", Ref "refType"); ("subjects", ListOf (OneOf [Ref "refLinkType"; Ref "bomLinkElementType"])); ("annotator", Object [("organization", Ref "organizationalEntity"); ("individual", Ref "organizationalContact"); ("component", Ref "component"); ("service", Ref "service")] []); ("timestamp", Text); ("text", Text); ("signature", Ref "signature")] ["subjects"; "annotator"; "timestamp"; "text"]);
   ("modelCard", Object [("bom-ref", Ref "refType"); ("modelParameters", Object [("approach", Object [("type", Words ["supervised"; "unsupervised"; "reinforcement-learning"; "semi-supervised"; "self-supervised"])] []); ("task", Text); ("architectureFamily", Text); ("modelArchitecture", Text); ("datasets", ListOf (OneOf [Ref "componentData"; Object [("ref", OneOf [Ref "refLinkType"; Ref "bomLinkElementType"])] []])); ("inputs", ListOf (Ref "inputOutputMLParameters")); ("outputs", ListOf (Ref "inputOutputMLParameters"))] []); ("quantitativeAnalysis", Object [("performanceMetrics", ListOf (Ref "performanceMetric")); ("graphics", Ref "graphicsCollection")] []); ("considerations", Object [("users", ListOf (Text)); ("useCases", ListOf (Text)); ("technicalLimitations", ListOf (Text)); ("performanceTradeoffs", ListOf (Text)); ("ethicalConsiderations", ListOf (Ref "risk")); ("environmentalConsiderations", Ref "environmentalConsiderations"); ("fairnessAssessments", ListOf (Ref "fairnessAssessment"))] []); ("properties", ListOf (Ref "property"))] []);
   ("inputOutputMLParameters", Object [("format", Text)] []);
   ("componentData", Object [("bom-ref", Ref "refType"); ("type", Words ["source-code"; "configuration"; "dataset"; "definition"; "other"]); ("name", Text); ("contents", Object [("attachment", Ref "attachment"); ("url", Text); ("properties", ListOf (Ref "property"))] []); ("classification", Ref "dataClassification"); ("sensitiveData", ListOf (Text)); ("graphics", Ref "graphicsCollection"); ("description", Text); ("governance", Ref "dataGovernance")] ["type"]);
   ("dataGovernance", Object [("custodians", ListOf (Ref "dataGovernanceResponsibleParty")); ("stewards", ListOf (Ref "dataGovernanceResponsibleParty")); ("owners", ListOf (Ref "dataGovernanceResponsibleParty"))] []);
   ("dataGovernanceResponsibleParty", Object [("organization", Ref "organizationalEntity"); ("contact", Ref "organizationalContact")] []);
   ("graphicsCollection", Object [("description", Text); ("collection", ListOf (Ref "graphic"))] []);
   ("graphic", Object [("name", Text); ("image", Ref "attachment")] []);
   ("performanceMetric", Object [("type", Text); ("value", Text); ("slice", Text); ("confidenceInterval", Object [("lowerBound", Text); ("upperBound", Text)] [])] []);
   ("risk", Object [("name", Text); ("mitigationStrategy", Text)] []);
   ("fairnessAssessment", Object [("groupAtRisk", Text); ("benefits", Text); ("harms", Text); ("mitigationStrategy", Text)] []);
   ("dataClassification", Text);
   ("environmentalConsiderations", Object [("energyConsumptions", ListOf (Ref "energyConsumption")); ("properties", ListOf (Ref "property"))] []);
   ("energyConsumption", Object [("activity", Words ["design"; "data-collection"; "data-preparation"; "training"; "fine-tuning"; "validation"; "deployment"; "inference"; "other"]); ("energyProviders", ListOf (Ref "energyProvider")); ("activityEnergyCost", Ref "energyMeasure"); ("co2CostEquivalent", Ref "co2Measure"); ("co2CostOffset", Ref "co2Measure"); ("properties", ListOf (Ref "property"))] ["activity"; "energyProviders"; "activityEnergyCost"]);
   ("energyMeasure", Object [("value", Number); ("unit", Words ["kWh"])] ["value"; "unit"]);
   ("co2Measure", Object [("value", Number); ("unit", Words ["tCO2eq"])] ["value"; "unit"]);
   ("energyProvider", Object [("bom-ref", Ref "refType"); ("description", Text); ("organization", Ref "organizationalEntity"); ("energySource", Words ["coal"; "oil"; "natural-gas"; "nuclear"; "wind"; "solar"; "geothermal"; "hydropower"; "biofuel"; "unknown"; "other"]); ("energyProvided", Ref "energyMeasure"); ("externalReferences", ListOf (Ref "externalReference"))] ["organization"; "energySource"; "energyProvided"]);
   ("postalAddress", Object [("bom-ref", Ref "refType"); ("country", Text); ("region", Text); ("locality", Text); ("postOfficeBoxNumber", Text); ("postalCode", Text); ("streetAddress", Text)] []);
   ("formula", Object [("bom-ref", Ref "refType"); ("components", ListOf (Ref "component")); ("services", ListOf (Ref "service")); ("workflows", ListOf (Ref "workflow")); ("properties", ListOf (Ref "property"))] []);
   ("workflow", Object [("bom-ref", Ref "refType"); ("uid", Text); ("name", Text); ("description", Text); ("resourceReferences", ListOf (Ref "resourceReferenceChoice")); ("tasks", ListOf (Ref "task")); ("taskDependencies", ListOf (Ref "dependency")); ("taskTypes", ListOf (Ref "taskType")); ("trigger", Ref "trigger"); ("steps", ListOf (Ref "step")); ("inputs", ListOf (Ref "inputType")); ("outputs", ListOf (Ref "outputType")); ("timeStart", Text); ("timeEnd", Text); ("workspaces", ListOf (Ref "workspace")); ("runtimeTopology", ListOf (Ref "dependency")); ("properties", ListOf (Ref "property"))] ["bom-ref"; "uid"; "taskTypes"]);
   ("task", Object [("bom-ref", Ref "refType"); ("uid", Text); ("name", Text); ("description", Text); ("resourceReferences", ListOf (Ref "resourceReferenceChoice")); ("taskTypes", ListOf (Ref "taskType")); ("trigger", Ref "trigger"); ("steps", ListOf (Ref "step")); ("inputs", ListOf (Ref "inputType")); ("outputs", ListOf (Ref "outputType")); ("timeStart", Text); ("timeEnd", Text); ("workspaces", ListOf (Ref "workspace")); ("runtimeTopology", ListOf (Ref "dependency")); ("properties", ListOf (Ref "property"))] ["bom-ref"; "uid"; "taskTypes"]);
   ("step", Object [("name", Text); ("description", Text); ("commands", ListOf (Ref "command")); ("properties", ListOf (Ref "property"))] []);
   ("command", Object [("executed", Text); ("properties", ListOf (Ref "property"))] []);
   ("workspace", Object [("bom-ref", Ref "refType"); ("uid", Text); ("name", Text); ("aliases", ListOf (Text)); ("description", Text); ("resourceReferences", ListOf (Ref "resourceReferenceChoice")); ("accessMode", Words ["read-only"; "read-write"; "read-write-once"; "write-once"; "write-only"]); ("mountPath", Text); ("managedDataType", Text); ("volumeRequest", Text); ("volume", Ref "volume"); ("properties", ListOf (Ref "property"))] ["bom-ref"; "uid"]);
   ("volume", Object [("uid", Text); ("name", Text); ("mode", Words ["filesystem"; "block"]); ("path", Text); ("sizeAllocated", Text); ("persistent", Truth); ("remote", Truth); ("properties", ListOf (Ref "property"))] []);
   ("trigger", Object [("bom-ref", Ref "refType"); ("uid", Text); ("name", Text); ("description", Text); ("resourceReferences", ListOf (Ref "resourceReferenceChoice")); ("type", Words ["manual"; "api"; "webhook"; "scheduled"]); ("event", Ref "event"); ("conditions", ListOf (Ref "condition")); ("timeActivated", Text); ("inputs", ListOf (Ref "inputType")); ("outputs", ListOf (Ref "outputType")); ("properties", ListOf (Ref "property"))] ["type"; "bom-ref"; "uid"]);
   ("event", Object [("uid", Text); ("description", Text); ("timeReceived", Text); ("data", Ref "attachment"); ("source", Ref "resourceReferenceChoice"); ("target", Ref "resourceReferenceChoice"); ("properties", ListOf (Ref "property"))] []);
   ("inputType", Object [("source", Ref "resourceReferenceChoice"); ("target", Ref "resourceReferenceChoice"); ("resource", Ref "resourceReferenceChoice"); ("parameters", ListOf (Ref "parameter")); ("environmentVars", ListOf (OneOf [Ref "property"; Text])); ("data", Ref "attachment"); ("properties", ListOf (Ref "property"))] []);
   ("outputType", Object [("type", Words ["artifact"; "attestation"; "log"; "evidence"; "metrics"; "other"]); ("source", Ref "resourceReferenceChoice"); ("target", Ref "resourceReferenceChoice"); ("resource", Ref "resourceReferenceChoice"); ("data", Ref "attachment"); ("environmentVars", ListOf (OneOf [Ref "property"; Text])); ("properties", ListOf (Ref "property"))] []);
   ("resourceReferenceChoice", Object [("ref", OneOf [Ref "refLinkType"; Ref "bomLinkElementType"]); ("externalReference", Ref "externalReference")] []);
   ("condition", Object [("description", Text); ("expression", Text); ("properties", ListOf (Ref "property"))] []);
   ("taskType", Words ["copy"; "clone"; "lint"; "scan"; "merge"; "build"; "test"; "deliver"; "deploy"; "release"; "clean"; "other"]);
   ("parameter", Object [("name", Text); ("value", Text); ("dataType", Text)] []);
   ("componentIdentityEvidence", Object [("field", Words ["group"; "name"; "version"; "purl"; "cpe"; "omniborId"; "swhid"; "swid"; "hash"]); ("confidence", Number); ("concludedValue", Text); ("methods", ListOf (Object [("technique", Words ["source-code-analysis"; "binary-analysis"; "manifest-analysis"; "ast-fingerprint"; "hash-comparison"; "instrumentation"; "dynamic-analysis"; "filename"; "attestation"; "other"]); ("confidence", Number); ("value", Text)] ["technique"; "confidence"])); ("tools", ListOf (OneOf [Ref "refLinkType"; Ref "bomLinkElementType"]))] ["field"]);
   ("standard", Object [("bom-ref", Ref "refType"); ("name", Text); ("version", Text); ("description", Text); ("owner", Text); ("requirements", ListOf (Object [("bom-ref", Ref "refType"); ("identifier", Text); ("title", Text); ("text", Text); ("descriptions", ListOf (Text)); ("openCre", ListOf (Text)); ("parent", Ref "refLinkType"); ("properties", ListOf (Ref "property")); ("externalReferences", ListOf (Ref "externalReference"))] [])); ("levels", ListOf (Object [("bom-ref", Ref "refType"); ("identifier", Text); ("title", Text); ("description", Text); ("requirements", ListOf (Ref "refLinkType"))] [])); ("externalReferences", ListOf (Ref "externalReference")); ("signature", Ref "signature")] []);
   ("signature", Ref "jsf:signature");
   ("cryptoProperties", Object [("assetType", Words ["algorithm"; "certificate"; "protocol"; "related-crypto-material"]); ("algorithmProperties", Object [("primitive", Words ["drbg"; "mac"; "block-cipher"; "stream-cipher"; "signature"; "hash"; "pke"; "xof"; "kdf"; "key-agree"; "kem"; "ae"; "combiner"; "key-wrap"; "other"; "unknown"]); ("algorithmFamily", Text); ("parameterSetIdentifier", Text); ("curve", Text); ("ellipticCurve", Text); ("executionEnvironment", Words ["software-plain-ram"; "software-encrypted-ram"; "software-tee"; "hardware"; "other"; "unknown"]); ("implementationPlatform", Words ["generic"; "x86_32"; "x86_64"; "armv7-a"; "armv7-m"; "armv8-a"; "armv8-m"; "armv9-a"; "armv9-m"; "s390x"; "ppc64"; "ppc64le"; "other"; "unknown"]); ("certificationLevel", ListOf (Words ["none"; "fips140-1-l1"; "fips140-1-l2"; "fips140-1-l3"; "fips140-1-l4"; "fips140-2-l1"; "fips140-2-l2"; "fips140-2-l3"; "fips140-2-l4"; "fips140-3-l1"; "fips140-3-l2"; "fips140-3-l3"; "fips140-3-l4"; "cc-eal1"; "cc-eal1+"; "cc-eal2"; "cc-eal2+"; "cc-eal3"; "cc-eal3+"; "cc-eal4"; "cc-eal4+"; "cc-eal5"; "cc-eal5+"; "cc-eal6"; "cc-eal6+"; "cc-eal7"; "cc-eal7+"; "other"; "unknown"])); ("mode", Words ["cbc"; "ecb"; "ccm"; "gcm"; "cfb"; "ofb"; "ctr"; "other"; "unknown"]); ("padding", Words ["pkcs5"; "pkcs7"; "pkcs1v15"; "oaep"; "raw"; "other"; "unknown"]); ("cryptoFunctions", ListOf (Words ["generate"; "keygen"; "encrypt"; "decrypt"; "digest"; "tag"; "keyderive"; "sign"; "verify"; "encapsulate"; "decapsulate"; "other"; "unknown"])); ("classicalSecurityLevel", Whole); ("nistQuantumSecurityLevel", Whole)] []); ("certificateProperties", Object [("serialNumber", Text); ("subjectName", Text); ("issuerName", Text); ("notValidBefore", Text); ("notValidAfter", Text); ("signatureAlgorithmRef", Ref "refType"); ("subjectPublicKeyRef", Ref "refType"); ("certificateFormat", Text); ("certificateExtension", Text); ("certificateFileExtension", Text); ("fingerprint", Ref "hash"); ("certificateState", ListOf (OneOf [Object [("state", Words ["pre-activation"; "active"; "suspended"; "deactivated"; "revoked"; "destroyed"]); ("reason", Text)] ["state"]; Object [("name", Text); ("description", Text); ("reason", Text)] ["name"]])); ("creationDate", Text); ("activationDate", Text); ("deactivationDate", Text); ("revocationDate", Text); ("destructionDate", Text); ("certificateExtensions", ListOf (OneOf [Object [("commonExtensionName", Words ["basicConstraints"; "keyUsage"; "extendedKeyUsage"; "subjectAlternativeName"; "authorityKeyIdentifier"; "subjectKeyIdentifier"; "authorityInformationAccess"; "certificatePolicies"; "crlDistributionPoints"; "signedCertificateTimestamp"]); ("commonExtensionValue", Text)] ["commonExtensionName"; "commonExtensionValue"]; Object [("customExtensionName", Text); ("customExtensionValue", Text)] ["customExtensionName"]])); ("relatedCryptographicAssets", Ref "relatedCryptographicAssets")] []); ("relatedCryptoMaterialProperties", Object [("type", Words ["private-key"; "public-key"; "secret-key"; "key"; "ciphertext"; "signature"; "digest"; "initialization-vector"; "nonce"; "seed"; "salt"; "shared-secret"; "tag"; "additional-data"; "password"; "credential"; "token"; "other"; "unknown"]); ("id", Text); ("state", Words ["pre-activation"; "active"; "suspended"; "deactivated"; "compromised"; "destroyed"]); ("algorithmRef", Ref "refType"); ("creationDate", Text); ("activationDate", Text); ("updateDate", Text); ("expirationDate", Text); ("value", Text); ("size", Whole); ("format", Text); ("securedBy", Ref "securedBy"); ("fingerprint", Ref "hash"); ("relatedCryptographicAssets", Ref "relatedCryptographicAssets")] []); ("protocolProperties", Object [("type", Words ["tls"; "ssh"; "ipsec"; "ike"; "sstp"; "wpa"; "dtls"; "quic"; "eap-aka"; "eap-aka-prime"; "prins"; "5g-aka"; "other"; "unknown"]); ("version", Text); ("cipherSuites", ListOf (Ref "cipherSuite")); ("ikev2TransformTypes", Object [("encr", OneOf [ListOf (Ref "ikeV2Enc"); Ref "cryptoRefArray"]); ("prf", OneOf [ListOf (Ref "ikeV2Prf"); Ref "cryptoRefArray"]); ("integ", OneOf [ListOf (Ref "ikeV2Integ"); Ref "cryptoRefArray"]); ("ke", OneOf [ListOf (Ref "ikeV2Ke"); Ref "cryptoRefArray"]); ("esn", Truth); ("auth", OneOf [ListOf (Ref "ikeV2Auth"); Ref "cryptoRefArray"])] []); ("cryptoRefArray", Ref "cryptoRefArray"); ("relatedCryptographicAssets", Ref "relatedCryptographicAssets")] []); ("oid", Text)] ["assetType"]);
   ("cipherSuite", Object [("name", Text); ("algorithms", ListOf (Ref "refType")); ("identifiers", ListOf (Text)); ("tlsGroups", ListOf (Text)); ("tlsSignatureSchemes", ListOf (Text))] []);
   ("ikeV2Enc", Object [("name", Text); ("keyLength", Whole); ("algorithm", Ref "refType")] []);
   ("ikeV2Prf", Object [("name", Text); ("algorithm", Ref "refType")] []);
   ("ikeV2Integ", Object [("name", Text); ("algorithm", Ref "refType")] []);
   ("ikeV2Ke", Object [("group", Whole); ("algorithm", Ref "refType")] []);
   ("ikeV2Auth", Object [("name", Text); ("algorithm", Ref "refType")] []);
   ("cryptoRefArray", ListOf (Ref "refType"));
   ("relatedCryptographicAssets", ListOf (Ref "relatedCryptographicAsset"));
   ("relatedCryptographicAsset", Object [("type", Text); ("ref", Ref "refType")] []);
   ("securedBy", Object [("mechanism", Text); ("algorithmRef", Ref "refType")] []);
   ("tags", ListOf (Text));
   ("patentFamily", Object [("bom-ref", Ref "refType"); ("familyId", Text); ("priorityApplication", Ref "priorityApplication"); ("members", ListOf (Ref "refLinkType")); ("externalReferences", ListOf (Ref "externalReference"))] ["familyId"]);
   ("patent", Object [("bom-ref", Ref "refType"); ("patentNumber", Text); ("applicationNumber", Ref "patentApplicationNumber"); ("jurisdiction", Ref "patentJurisdiction"); ("priorityApplication", Ref "priorityApplication"); ("publicationNumber", Text); ("title", Text); ("abstract", Text); ("filingDate", Text); ("grantDate", Text); ("patentExpirationDate", Text); ("patentLegalStatus", Words ["pending"; "granted"; "revoked"; "expired"; "lapsed"; "withdrawn"; "abandoned"; "suspended"; "reinstated"; "opposed"; "terminated"; "invalidated"; "in-force"]); ("patentAssignee", ListOf (OneOf [Ref "organizationalContact"; Ref "organizationalEntity"])); ("externalReferences", ListOf (Ref "externalReference"))] ["patentNumber"; "jurisdiction"; "patentLegalStatus"]);
   ("patentAssertions", ListOf (Object [("bom-ref", Ref "refType"); ("assertionType", Words ["ownership"; "license"; "third-party-claim"; "standards-inclusion"; "prior-art"; "exclusive-rights"; "non-assertion"; "research-or-evaluation"]); ("patentRefs", ListOf (Ref "refType")); ("asserter", OneOf [Ref "organizationalEntity"; Ref "organizationalContact"; Ref "refLinkType"]); ("notes", Text)] ["assertionType"; "asserter"]));
   ("patentApplicationNumber", Text);
   ("patentJurisdiction", Text);
   ("patentFilingDate", Text);
   ("priorityApplication", Object [("applicationNumber", Ref "patentApplicationNumber"); ("jurisdiction", Ref "patentJurisdiction"); ("filingDate", Ref "patentFilingDate")] ["applicationNumber"; "jurisdiction"; "filingDate"]);
   ("citation", Object [("bom-ref", Ref "refType"); ("pointers", ListOf (Text)); ("expressions", ListOf (Text)); ("timestamp", Text); ("attributedTo", Ref "refLinkType"); ("process", Ref "refLinkType"); ("note", Text); ("signature", Ref "signature")] ["timestamp"]);
   ("jsf:signature", OneOf [Object [("signers", ListOf (Ref "jsf:signer"))] []; Object [("chain", ListOf (Ref "jsf:signer"))] []; Ref "jsf:signer"]);
   ("jsf:signer", Object [("algorithm", OneOf [Words ["RS256"; "RS384"; "RS512"; "PS256"; "PS384"; "PS512"; "ES256"; "ES384"; "ES512"; "Ed25519"; "Ed448"; "HS256"; "HS384"; "HS512"]; Text]); ("keyId", Text); ("publicKey", Ref "jsf:publicKey"); ("certificatePath", ListOf (Text)); ("excludes", ListOf (Text)); ("value", Text)] ["algorithm"; "value"]);
   ("jsf:keyType", Words ["EC"; "OKP"; "RSA"]);
   ("jsf:publicKey", Object [("kty", Text); ("crv", Text); ("x", Text); ("y", Text); ("n", Text); ("e", Text)] ["kty"])].
