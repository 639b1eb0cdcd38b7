(** GENERATED by tools/gen_table.py: the struct declarations of /repo/cyclonedx.go and the
    helper structs of /repo/cyclonedx_json.go and /repo/cyclonedx_xml.go, tags verbatim. *)
From Verif Require Import Base Univ.
Local Open Scope string_scope.

(** encoding/xml Name *)
Definition fields_xmlName : list field := [ mkField "Space" TStr "" false; mkField "Local" TStr "" false ].
(** /repo/cyclonedx.go:1277-1280 *)
Definition fields_Property : list field :=
  [ mkField "Name" (TStr) "json:""name"" xml:""name,attr""" false;
    mkField "Value" (TStr) "json:""value"" xml:"",chardata""" false ].
(** /repo/cyclonedx.go:657-660 *)
Definition fields_EnvironmentVariableChoice : list field :=
  [ mkField "Property" (TPtr (TRef "Property")) "json:""-"" xml:""-""" false;
    mkField "Value" (TStr) "json:""-"" xml:""-""" false ].
(** /repo/cyclonedx.go:73-77 *)
Definition fields_AttachedText : list field :=
  [ mkField "Content" (TStr) "json:""content"" xml:"",chardata""" false;
    mkField "ContentType" (TStr) "json:""contentType,omitempty"" xml:""content-type,attr,omitempty""" false;
    mkField "Encoding" (TStr) "json:""encoding,omitempty"" xml:""encoding,attr,omitempty""" false ].
(** /repo/cyclonedx.go:1261-1269 *)
Definition fields_PostalAddress : list field :=
  [ mkField "BOMRef" (TStr) "json:""bom-ref,omitempty"" xml:""bom-ref,attr,omitempty""" false;
    mkField "Country" (TStr) "json:""country,omitempty"" xml:""country,omitempty""" false;
    mkField "Region" (TStr) "json:""region,omitempty"" xml:""region,omitempty""" false;
    mkField "Locality" (TStr) "json:""locality,omitempty"" xml:""locality,omitempty""" false;
    mkField "PostOfficeBoxNumber" (TStr) "json:""postOfficeBoxNumber,omitempty"" xml:""postOfficeBoxNumber,omitempty""" false;
    mkField "PostalCode" (TStr) "json:""postalCode,omitempty"" xml:""postalCode,omitempty""" false;
    mkField "StreetAddress" (TStr) "json:""streetAddress,omitempty"" xml:""streetAddress,omitempty""" false ].
(** /repo/cyclonedx.go:1211-1216 *)
Definition fields_OrganizationalContact : list field :=
  [ mkField "BOMRef" (TStr) "json:""bom-ref,omitempty"" xml:""bom-ref,attr,omitempty""" false;
    mkField "Name" (TStr) "json:""name,omitempty"" xml:""name,omitempty""" false;
    mkField "Email" (TStr) "json:""email,omitempty"" xml:""email,omitempty""" false;
    mkField "Phone" (TStr) "json:""phone,omitempty"" xml:""phone,omitempty""" false ].
(** /repo/cyclonedx.go:1218-1224 *)
Definition fields_OrganizationalEntity : list field :=
  [ mkField "BOMRef" (TStr) "json:""bom-ref,omitempty"" xml:""bom-ref,attr,omitempty""" false;
    mkField "Name" (TStr) "json:""name"" xml:""name""" false;
    mkField "Address" (TPtr (TRef "PostalAddress")) "json:""address,omitempty"" xml:""address,omitempty""" false;
    mkField "URL" (TPtr (TSlice (TStr))) "json:""url,omitempty"" xml:""url,omitempty""" false;
    mkField "Contact" (TPtr (TSlice (TRef "OrganizationalContact"))) "json:""contact,omitempty"" xml:""contact,omitempty""" false ].
(** /repo/cyclonedx.go:1226-1229 *)
Definition fields_OrganizationalEntityOrContact : list field :=
  [ mkField "Organization" (TPtr (TRef "OrganizationalEntity")) "json:""organization,omitempty"" xml:""organization,omitempty""" false;
    mkField "Individual" (TPtr (TRef "OrganizationalContact")) "json:""individual,omitempty"" xml:""individual,omitempty""" false ].
(** /repo/cyclonedx.go:995-1004 *)
Definition fields_Licensing : list field :=
  [ mkField "AltIDs" (TPtr (TSlice (TStr))) "json:""altIds,omitempty"" xml:""altIds>altId,omitempty""" false;
    mkField "Licensor" (TPtr (TRef "OrganizationalEntityOrContact")) "json:""licensor,omitempty"" xml:""licensor,omitempty""" false;
    mkField "Licensee" (TPtr (TRef "OrganizationalEntityOrContact")) "json:""licensee,omitempty"" xml:""licensee,omitempty""" false;
    mkField "Purchaser" (TPtr (TRef "OrganizationalEntityOrContact")) "json:""purchaser,omitempty"" xml:""purchaser,omitempty""" false;
    mkField "PurchaseOrder" (TStr) "json:""purchaseOrder,omitempty"" xml:""purchaseOrder,omitempty""" false;
    mkField "LicenseTypes" (TPtr (TSlice (TStr))) "json:""licenseTypes,omitempty"" xml:""licenseTypes>licenseType,omitempty""" false;
    mkField "LastRenewal" (TStr) "json:""lastRenewal,omitempty"" xml:""lastRenewal,omitempty""" false;
    mkField "Expiration" (TStr) "json:""expiration,omitempty"" xml:""expiration,omitempty""" false ].
(** /repo/cyclonedx.go:936-945 *)
Definition fields_License : list field :=
  [ mkField "BOMRef" (TStr) "json:""bom-ref,omitempty"" xml:""bom-ref,attr,omitempty""" false;
    mkField "ID" (TStr) "json:""id,omitempty"" xml:""id,omitempty""" false;
    mkField "Name" (TStr) "json:""name,omitempty"" xml:""name,omitempty""" false;
    mkField "Acknowledgement" (TStr) "json:""acknowledgement,omitempty"" xml:""acknowledgement,attr,omitempty""" false;
    mkField "Text" (TPtr (TRef "AttachedText")) "json:""text,omitempty"" xml:""text,omitempty""" false;
    mkField "URL" (TStr) "json:""url,omitempty"" xml:""url,omitempty""" false;
    mkField "Licensing" (TPtr (TRef "Licensing")) "json:""licensing,omitempty"" xml:""licensing,omitempty""" false;
    mkField "Properties" (TPtr (TSlice (TRef "Property"))) "json:""properties,omitempty"" xml:""properties>property,omitempty""" false ].
(** /repo/cyclonedx.go:967-972 *)
Definition fields_LicenseExpressionDetail : list field :=
  [ mkField "LicenseIdentifier" (TStr) "json:""licenseIdentifier"" xml:""-""" false;
    mkField "BOMRef" (TStr) "json:""bom-ref,omitempty"" xml:""-""" false;
    mkField "Text" (TPtr (TRef "AttachedText")) "json:""text,omitempty"" xml:""-""" false;
    mkField "URL" (TStr) "json:""url,omitempty"" xml:""-""" false ].
(** /repo/cyclonedx.go:956-964 *)
Definition fields_LicenseChoice : list field :=
  [ mkField "License" (TPtr (TRef "License")) "json:""license,omitempty"" xml:""-""" false;
    mkField "Expression" (TStr) "json:""expression,omitempty"" xml:""-""" false;
    mkField "ExpressionDetails" (TPtr (TSlice (TRef "LicenseExpressionDetail"))) "json:""expressionDetails,omitempty"" xml:""-""" false;
    mkField "Acknowledgement" (TPtr (TStr)) "json:""acknowledgement,omitempty"" xml:""-""" false;
    mkField "BOMRef" (TStr) "json:""bom-ref,omitempty"" xml:""-""" false;
    mkField "Licensing" (TPtr (TRef "Licensing")) "json:""licensing,omitempty"" xml:""-""" false;
    mkField "Properties" (TPtr (TSlice (TRef "Property"))) "json:""properties,omitempty"" xml:""properties>property,omitempty""" false ].
(** /repo/cyclonedx.go:35-38 *)
Definition fields_Advisory : list field :=
  [ mkField "Title" (TStr) "json:""title,omitempty"" xml:""title,omitempty""" false;
    mkField "URL" (TStr) "json:""url"" xml:""url""" false ].
(** /repo/cyclonedx.go:40-44 *)
Definition fields_AffectedVersions : list field :=
  [ mkField "Version" (TStr) "json:""version,omitempty"" xml:""version,omitempty""" false;
    mkField "Range" (TStr) "json:""range,omitempty"" xml:""range,omitempty""" false;
    mkField "Status" (TStr) "json:""status"" xml:""status""" false ].
(** /repo/cyclonedx.go:46-49 *)
Definition fields_Affects : list field :=
  [ mkField "Ref" (TStr) "json:""ref"" xml:""ref""" false;
    mkField "Range" (TPtr (TSlice (TRef "AffectedVersions"))) "json:""versions,omitempty"" xml:""versions>version,omitempty""" false ].
(** /repo/cyclonedx.go:808-811 *)
Definition fields_Hash : list field :=
  [ mkField "Algorithm" (TStr) "json:""alg"" xml:""alg,attr""" false;
    mkField "Value" (TStr) "json:""content"" xml:"",chardata""" false ].
(** /repo/cyclonedx.go:1449-1457 *)
Definition fields_SWID : list field :=
  [ mkField "Text" (TPtr (TRef "AttachedText")) "json:""text,omitempty"" xml:""text,omitempty""" false;
    mkField "URL" (TStr) "json:""url,omitempty"" xml:""url,attr,omitempty""" false;
    mkField "TagID" (TStr) "json:""tagId"" xml:""tagId,attr""" false;
    mkField "Name" (TStr) "json:""name"" xml:""name,attr""" false;
    mkField "Version" (TStr) "json:""version,omitempty"" xml:""version,attr,omitempty""" false;
    mkField "TagVersion" (TPtr (TInt)) "json:""tagVersion,omitempty"" xml:""tagVersion,attr,omitempty""" false;
    mkField "Patch" (TPtr (TBool)) "json:""patch,omitempty"" xml:""patch,attr,omitempty""" false ].
(** /repo/cyclonedx.go:832-836 *)
Definition fields_IdentifiableAction : list field :=
  [ mkField "Timestamp" (TStr) "json:""timestamp,omitempty"" xml:""timestamp,omitempty""" false;
    mkField "Name" (TStr) "json:""name,omitempty"" xml:""name,omitempty""" false;
    mkField "Email" (TStr) "json:""email,omitempty"" xml:""email,omitempty""" false ].
(** /repo/cyclonedx.go:231-237 *)
Definition fields_Commit : list field :=
  [ mkField "UID" (TStr) "json:""uid,omitempty"" xml:""uid,omitempty""" false;
    mkField "URL" (TStr) "json:""url,omitempty"" xml:""url,omitempty""" false;
    mkField "Author" (TPtr (TRef "IdentifiableAction")) "json:""author,omitempty"" xml:""author,omitempty""" false;
    mkField "Committer" (TPtr (TRef "IdentifiableAction")) "json:""committer,omitempty"" xml:""committer,omitempty""" false;
    mkField "Message" (TStr) "json:""message,omitempty"" xml:""message,omitempty""" false ].
(** /repo/cyclonedx.go:650-653 *)
Definition fields_Diff : list field :=
  [ mkField "Text" (TPtr (TRef "AttachedText")) "json:""text,omitempty"" xml:""text,omitempty""" false;
    mkField "URL" (TStr) "json:""url,omitempty"" xml:""url,omitempty""" false ].
(** /repo/cyclonedx.go:1398-1401 *)
Definition fields_Source : list field :=
  [ mkField "Name" (TStr) "json:""name,omitempty"" xml:""name,omitempty""" false;
    mkField "URL" (TStr) "json:""url,omitempty"" xml:""url,omitempty""" false ].
(** /repo/cyclonedx.go:892-899 *)
Definition fields_Issue : list field :=
  [ mkField "ID" (TStr) "json:""id"" xml:""id""" false;
    mkField "Name" (TStr) "json:""name,omitempty"" xml:""name,omitempty""" false;
    mkField "Description" (TStr) "json:""description"" xml:""description""" false;
    mkField "Source" (TPtr (TRef "Source")) "json:""source,omitempty"" xml:""source,omitempty""" false;
    mkField "References" (TPtr (TSlice (TStr))) "json:""references,omitempty"" xml:""references>url,omitempty""" false;
    mkField "Type" (TStr) "json:""type"" xml:""type,attr""" false ].
(** /repo/cyclonedx.go:1237-1241 *)
Definition fields_Patch : list field :=
  [ mkField "Diff" (TPtr (TRef "Diff")) "json:""diff,omitempty"" xml:""diff,omitempty""" false;
    mkField "Resolves" (TPtr (TSlice (TRef "Issue"))) "json:""resolves,omitempty"" xml:""resolves>issue,omitempty""" false;
    mkField "Type" (TStr) "json:""type"" xml:""type,attr""" false ].
(** /repo/cyclonedx.go:1252-1259 *)
Definition fields_Pedigree : list field :=
  [ mkField "Ancestors" (TPtr (TSlice (TRef "Component"))) "json:""ancestors,omitempty"" xml:""ancestors>component,omitempty""" false;
    mkField "Descendants" (TPtr (TSlice (TRef "Component"))) "json:""descendants,omitempty"" xml:""descendants>component,omitempty""" false;
    mkField "Variants" (TPtr (TSlice (TRef "Component"))) "json:""variants,omitempty"" xml:""variants>component,omitempty""" false;
    mkField "Commits" (TPtr (TSlice (TRef "Commit"))) "json:""commits,omitempty"" xml:""commits>commit,omitempty""" false;
    mkField "Patches" (TPtr (TSlice (TRef "Patch"))) "json:""patches,omitempty"" xml:""patches>patch,omitempty""" false;
    mkField "Notes" (TStr) "json:""notes,omitempty"" xml:""notes,omitempty""" false ].
(** /repo/cyclonedx.go:740-746 *)
Definition fields_ExternalReference : list field :=
  [ mkField "URL" (TStr) "json:""url"" xml:""url""" false;
    mkField "Comment" (TStr) "json:""comment,omitempty"" xml:""comment,omitempty""" false;
    mkField "Hashes" (TPtr (TSlice (TRef "Hash"))) "json:""hashes,omitempty"" xml:""hashes>hash,omitempty""" false;
    mkField "Type" (TStr) "json:""type"" xml:""type,attr""" false;
    mkField "Properties" (TPtr (TSlice (TRef "Property"))) "json:""properties,omitempty"" xml:""properties>property,omitempty""" false ].
(** /repo/cyclonedx.go:710-714 *)
Definition fields_EvidenceIdentityMethod : list field :=
  [ mkField "Technique" (TStr) "json:""technique,omitempty"" xml:""technique,omitempty""" false;
    mkField "Confidence" (TPtr (TF32)) "json:""confidence,omitempty"" xml:""confidence,omitempty""" false;
    mkField "Value" (TStr) "json:""value,omitempty"" xml:""value,omitempty""" false ].
(** /repo/cyclonedx.go:688-694 *)
Definition fields_EvidenceIdentity : list field :=
  [ mkField "Field" (TStr) "json:""field,omitempty"" xml:""field,omitempty""" false;
    mkField "Confidence" (TPtr (TF32)) "json:""confidence,omitempty"" xml:""confidence,omitempty""" false;
    mkField "ConcludedValue" (TStr) "json:""concludedValue,omitempty"" xml:""concludedValue,omitempty""" false;
    mkField "Methods" (TPtr (TSlice (TRef "EvidenceIdentityMethod"))) "json:""methods,omitempty"" xml:""methods>method,omitempty""" false;
    mkField "Tools" (TPtr (TSlice (TRef "BOMReference"))) "json:""tools,omitempty"" xml:""tools>tool,omitempty""" false ].
(** /repo/cyclonedx.go:683-686 *)
Definition fields_EvidenceIdentityChoice : list field :=
  [ mkField "Identity" (TPtr (TRef "EvidenceIdentity")) "json:""-"" xml:""-""" false;
    mkField "Identities" (TPtr (TSlice (TRef "EvidenceIdentity"))) "json:""-"" xml:""-""" false ].
(** /repo/cyclonedx.go:731-738 *)
Definition fields_EvidenceOccurrence : list field :=
  [ mkField "BOMRef" (TStr) "json:""bom-ref,omitempty"" xml:""bom-ref,attr,omitempty""" false;
    mkField "Location" (TStr) "json:""location,omitempty"" xml:""location,omitempty""" false;
    mkField "Line" (TPtr (TInt)) "json:""line,omitempty"" xml:""line,attr,omitempty""" false;
    mkField "Offset" (TPtr (TInt)) "json:""offset,omitempty"" xml:""offset,attr,omitempty""" false;
    mkField "Symbol" (TStr) "json:""symbol,omitempty"" xml:""symbol,attr,omitempty""" false;
    mkField "AdditionalContext" (TStr) "json:""additionalContext,omitempty"" xml:""additionalContext,attr,omitempty""" false ].
(** /repo/cyclonedx.go:161-169 *)
Definition fields_CallstackFrame : list field :=
  [ mkField "Package" (TStr) "json:""package,omitempty"" xml:""package,omitempty""" false;
    mkField "Module" (TStr) "json:""module,omitempty"" xml:""module,omitempty""" false;
    mkField "Function" (TStr) "json:""function,omitempty"" xml:""function,omitempty""" false;
    mkField "Parameters" (TPtr (TSlice (TStr))) "json:""parameters,omitempty"" xml:""parameters>parameter,omitempty""" false;
    mkField "Line" (TPtr (TInt)) "json:""line,omitempty"" xml:""line,omitempty""" false;
    mkField "Column" (TPtr (TInt)) "json:""column,omitempty"" xml:""column,omitempty""" false;
    mkField "FullFilename" (TStr) "json:""fullFilename,omitempty"" xml:""fullFilename,omitempty""" false ].
(** /repo/cyclonedx.go:157-159 *)
Definition fields_Callstack : list field :=
  [ mkField "Frames" (TPtr (TSlice (TRef "CallstackFrame"))) "json:""frames,omitempty"" xml:""frames>frame,omitempty""" false ].
(** /repo/cyclonedx.go:345-347 *)
Definition fields_Copyright : list field :=
  [ mkField "Text" (TStr) "json:""text"" xml:""-""" false ].
(** /repo/cyclonedx.go:672-678 *)
Definition fields_Evidence : list field :=
  [ mkField "Identity" (TPtr (TRef "EvidenceIdentityChoice")) "json:""identity,omitempty"" xml:""-""" false;
    mkField "Occurrences" (TPtr (TSlice (TRef "EvidenceOccurrence"))) "json:""occurrences,omitempty"" xml:""-""" false;
    mkField "Callstack" (TPtr (TRef "Callstack")) "json:""callstack,omitempty"" xml:""-""" false;
    mkField "Licenses" (TPtr (TRef "Licenses")) "json:""licenses,omitempty"" xml:""-""" false;
    mkField "Copyright" (TPtr (TSlice (TRef "Copyright"))) "json:""copyright,omitempty"" xml:""-""" false ].
(** /repo/cyclonedx.go:1206-1209 *)
Definition fields_Note : list field :=
  [ mkField "Locale" (TStr) "json:""locale,omitempty"" xml:""locale,omitempty""" false;
    mkField "Text" (TRef "AttachedText") "json:""text"" xml:""text""" false ].
(** /repo/cyclonedx.go:1323-1335 *)
Definition fields_ReleaseNotes : list field :=
  [ mkField "Type" (TStr) "json:""type"" xml:""type""" false;
    mkField "Title" (TStr) "json:""title,omitempty"" xml:""title,omitempty""" false;
    mkField "FeaturedImage" (TStr) "json:""featuredImage,omitempty"" xml:""featuredImage,omitempty""" false;
    mkField "SocialImage" (TStr) "json:""socialImage,omitempty"" xml:""socialImage,omitempty""" false;
    mkField "Description" (TStr) "json:""description,omitempty"" xml:""description,omitempty""" false;
    mkField "Timestamp" (TStr) "json:""timestamp,omitempty"" xml:""timestamp,omitempty""" false;
    mkField "Aliases" (TPtr (TSlice (TStr))) "json:""aliases,omitempty"" xml:""aliases>alias,omitempty""" false;
    mkField "Tags" (TPtr (TSlice (TStr))) "json:""tags,omitempty"" xml:""tags>tag,omitempty""" false;
    mkField "Resolves" (TPtr (TSlice (TRef "Issue"))) "json:""resolves,omitempty"" xml:""resolves>issue,omitempty""" false;
    mkField "Notes" (TPtr (TSlice (TRef "Note"))) "json:""notes,omitempty"" xml:""notes>note,omitempty""" false;
    mkField "Properties" (TPtr (TSlice (TRef "Property"))) "json:""properties,omitempty"" xml:""properties>property,omitempty""" false ].
(** /repo/cyclonedx.go:1175-1177 *)
Definition fields_MLModelParametersApproach : list field :=
  [ mkField "Type" (TStr) "json:""type,omitempty"" xml:""type,omitempty""" false ].
(** /repo/cyclonedx.go:290-294 *)
Definition fields_ComponentDataContents : list field :=
  [ mkField "Attachment" (TPtr (TRef "AttachedText")) "json:""attachment,omitempty"" xml:""attachment,omitempty""" false;
    mkField "URL" (TStr) "json:""url,omitempty"" xml:""url,omitempty""" false;
    mkField "Properties" (TPtr (TSlice (TRef "Property"))) "json:""properties,omitempty"" xml:""properties,omitempty""" false ].
(** /repo/cyclonedx.go:301-304 *)
Definition fields_ComponentDataGraphic : list field :=
  [ mkField "Name" (TStr) "json:""name,omitempty"" xml:""name,omitempty""" false;
    mkField "Image" (TPtr (TRef "AttachedText")) "json:""image,omitempty"" xml:""image,omitempty""" false ].
(** /repo/cyclonedx.go:306-309 *)
Definition fields_ComponentDataGraphics : list field :=
  [ mkField "Description" (TStr) "json:""description,omitempty"" xml:""description,omitempty""" false;
    mkField "Collection" (TPtr (TSlice (TRef "ComponentDataGraphic"))) "json:""collection,omitempty"" xml:""collection>graphic,omitempty""" false ].
(** /repo/cyclonedx.go:296-299 *)
Definition fields_ComponentDataGovernanceResponsibleParty : list field :=
  [ mkField "Organization" (TPtr (TRef "OrganizationalEntity")) "json:""organization,omitempty"" xml:""organization,omitempty""" false;
    mkField "Contact" (TPtr (TRef "OrganizationalContact")) "json:""contact,omitempty"" xml:""contact,omitempty""" false ].
(** /repo/cyclonedx.go:570-574 *)
Definition fields_DataGovernance : list field :=
  [ mkField "Custodians" (TPtr (TSlice (TRef "ComponentDataGovernanceResponsibleParty"))) "json:""custodians,omitempty"" xml:""custodians>custodian,omitempty""" false;
    mkField "Stewards" (TPtr (TSlice (TRef "ComponentDataGovernanceResponsibleParty"))) "json:""stewards,omitempty"" xml:""stewards>steward,omitempty""" false;
    mkField "Owners" (TPtr (TSlice (TRef "ComponentDataGovernanceResponsibleParty"))) "json:""owners,omitempty"" xml:""owners>owner,omitempty""" false ].
(** /repo/cyclonedx.go:278-288 *)
Definition fields_ComponentData : list field :=
  [ mkField "BOMRef" (TStr) "json:""bom-ref,omitempty"" xml:""bom-ref,attr,omitempty""" false;
    mkField "Type" (TStr) "json:""type,omitempty"" xml:""type,omitempty""" false;
    mkField "Name" (TStr) "json:""name,omitempty"" xml:""name,omitempty""" false;
    mkField "Contents" (TPtr (TRef "ComponentDataContents")) "json:""contents,omitempty"" xml:""contents,omitempty""" false;
    mkField "Classification" (TStr) "json:""classification,omitempty"" xml:""classification,omitempty""" false;
    mkField "SensitiveData" (TPtr (TSlice (TStr))) "json:""sensitiveData,omitempty"" xml:""sensitiveData,omitempty""" false;
    mkField "Graphics" (TPtr (TRef "ComponentDataGraphics")) "json:""graphics,omitempty"" xml:""graphics,omitempty""" false;
    mkField "Description" (TStr) "json:""description,omitempty"" xml:""description,omitempty""" false;
    mkField "Governance" (TPtr (TRef "DataGovernance")) "json:""governance,omitempty"" xml:""governance,omitempty""" false ].
(** /repo/cyclonedx.go:1056-1059 *)
Definition fields_MLDatasetChoice : list field :=
  [ mkField "Ref" (TStr) "json:""-"" xml:""-""" false;
    mkField "ComponentData" (TPtr (TRef "ComponentData")) "json:""-"" xml:""-""" false ].
(** /repo/cyclonedx.go:1061-1063 *)
Definition fields_MLInputOutputParameters : list field :=
  [ mkField "Format" (TStr) "json:""format,omitempty"" xml:""format,omitempty""" false ].
(** /repo/cyclonedx.go:1165-1173 *)
Definition fields_MLModelParameters : list field :=
  [ mkField "Approach" (TPtr (TRef "MLModelParametersApproach")) "json:""approach,omitempty"" xml:""approach,omitempty""" false;
    mkField "Task" (TStr) "json:""task,omitempty"" xml:""task,omitempty""" false;
    mkField "ArchitectureFamily" (TStr) "json:""architectureFamily,omitempty"" xml:""architectureFamily,omitempty""" false;
    mkField "ModelArchitecture" (TStr) "json:""modelArchitecture,omitempty"" xml:""modelArchitecture,omitempty""" false;
    mkField "Datasets" (TPtr (TSlice (TRef "MLDatasetChoice"))) "json:""datasets,omitempty"" xml:""datasets>dataset,omitempty""" false;
    mkField "Inputs" (TPtr (TSlice (TRef "MLInputOutputParameters"))) "json:""inputs,omitempty"" xml:""inputs>input,omitempty""" false;
    mkField "Outputs" (TPtr (TSlice (TRef "MLInputOutputParameters"))) "json:""outputs,omitempty"" xml:""outputs>output,omitempty""" false ].
(** /repo/cyclonedx.go:1201-1204 *)
Definition fields_MLPerformanceMetricConfidenceInterval : list field :=
  [ mkField "LowerBound" (TStr) "json:""lowerBound,omitempty"" xml:""lowerBound,omitempty""" false;
    mkField "UpperBound" (TStr) "json:""upperBound,omitempty"" xml:""upperBound,omitempty""" false ].
(** /repo/cyclonedx.go:1194-1199 *)
Definition fields_MLPerformanceMetric : list field :=
  [ mkField "Type" (TStr) "json:""type,omitempty"" xml:""type,omitempty""" false;
    mkField "Value" (TStr) "json:""value,omitempty"" xml:""value,omitempty""" false;
    mkField "Slice" (TStr) "json:""slice,omitempty"" xml:""slice,omitempty""" false;
    mkField "ConfidenceInterval" (TPtr (TRef "MLPerformanceMetricConfidenceInterval")) "json:""confidenceInterval,omitempty"" xml:""confidenceInterval,omitempty""" false ].
(** /repo/cyclonedx.go:1189-1192 *)
Definition fields_MLQuantitativeAnalysis : list field :=
  [ mkField "PerformanceMetrics" (TPtr (TSlice (TRef "MLPerformanceMetric"))) "json:""performanceMetrics,omitempty"" xml:""performanceMetrics>performanceMetric,omitempty""" false;
    mkField "Graphics" (TPtr (TRef "ComponentDataGraphics")) "json:""graphics,omitempty"" xml:""graphics,omitempty""" false ].
(** /repo/cyclonedx.go:1087-1090 *)
Definition fields_MLModelCardEthicalConsideration : list field :=
  [ mkField "Name" (TStr) "json:""name,omitempty"" xml:""name,omitempty""" false;
    mkField "MitigationStrategy" (TStr) "json:""mitigationStrategy,omitempty"" xml:""mitigationStrategy,omitempty""" false ].
(** /repo/cyclonedx.go:1131-1134 *)
Definition fields_MLModelEnergyMeasure : list field :=
  [ mkField "Value" (TF32) "json:""value"" xml:""value""" false;
    mkField "Unit" (TStr) "json:""unit"" xml:""unit""" false ].
(** /repo/cyclonedx.go:1136-1143 *)
Definition fields_MLModelEnergyProvider : list field :=
  [ mkField "BOMRef" (TStr) "json:""bom-ref,omitempty"" xml:""bom-ref,attr,omitempty""" false;
    mkField "Description" (TStr) "json:""description,omitempty"" xml:""description,omitempty""" false;
    mkField "Organization" (TPtr (TRef "OrganizationalEntity")) "json:""organization"" xml:""organization""" false;
    mkField "EnergySource" (TStr) "json:""energySource"" xml:""energySource""" false;
    mkField "EnergyProvided" (TPtr (TRef "MLModelEnergyMeasure")) "json:""energyProvided"" xml:""energyProvided""" false;
    mkField "ExternalReferences" (TPtr (TSlice (TRef "ExternalReference"))) "json:""externalReferences,omitempty"" xml:""externalReferences>reference,omitempty""" false ].
(** /repo/cyclonedx.go:1099-1102 *)
Definition fields_MLModelCO2Measure : list field :=
  [ mkField "Value" (TF32) "json:""value"" xml:""value""" false;
    mkField "Unit" (TStr) "json:""unit"" xml:""unit""" false ].
(** /repo/cyclonedx.go:1108-1115 *)
Definition fields_MLModelEnergyConsumption : list field :=
  [ mkField "Activity" (TStr) "json:""activity"" xml:""activity""" false;
    mkField "EnergyProviders" (TPtr (TSlice (TRef "MLModelEnergyProvider"))) "json:""energyProviders"" xml:""energyProviders""" false;
    mkField "ActivityEnergyCost" (TRef "MLModelEnergyMeasure") "json:""activityEnergyCost"" xml:""activityEnergyCost""" false;
    mkField "CO2CostEquivalent" (TPtr (TRef "MLModelCO2Measure")) "json:""co2CostEquivalent,omitempty"" xml:""co2CostEquivalent,omitempty""" false;
    mkField "CO2CostOffset" (TPtr (TRef "MLModelCO2Measure")) "json:""co2CostOffset,omitempty"" xml:""co2CostOffset,omitempty""" false;
    mkField "Properties" (TPtr (TSlice (TRef "Property"))) "json:""properties,omitempty"" xml:""properties>property,omitempty""" false ].
(** /repo/cyclonedx.go:1082-1085 *)
Definition fields_MLModelCardEnvironmentalConsiderations : list field :=
  [ mkField "EnergyConsumptions" (TPtr (TSlice (TRef "MLModelEnergyConsumption"))) "json:""energyConsumptions,omitempty"" xml:""energyConsumptions>energyConsumption,omitempty""" false;
    mkField "Properties" (TPtr (TSlice (TRef "Property"))) "json:""properties,omitempty"" xml:""properties>property,omitempty""" false ].
(** /repo/cyclonedx.go:1092-1097 *)
Definition fields_MLModelCardFairnessAssessment : list field :=
  [ mkField "GroupAtRisk" (TStr) "json:""groupAtRisk,omitempty"" xml:""groupAtRisk,omitempty""" false;
    mkField "Benefits" (TStr) "json:""benefits,omitempty"" xml:""benefits,omitempty""" false;
    mkField "Harms" (TStr) "json:""harms,omitempty"" xml:""harms,omitempty""" false;
    mkField "MitigationStrategy" (TStr) "json:""mitigationStrategy,omitempty"" xml:""mitigationStrategy,omitempty""" false ].
(** /repo/cyclonedx.go:1072-1080 *)
Definition fields_MLModelCardConsiderations : list field :=
  [ mkField "Users" (TPtr (TSlice (TStr))) "json:""users,omitempty"" xml:""users>user,omitempty""" false;
    mkField "UseCases" (TPtr (TSlice (TStr))) "json:""useCases,omitempty"" xml:""useCases>useCase,omitempty""" false;
    mkField "TechnicalLimitations" (TPtr (TSlice (TStr))) "json:""technicalLimitations,omitempty"" xml:""technicalLimitations>technicalLimitation,omitempty""" false;
    mkField "PerformanceTradeoffs" (TPtr (TSlice (TStr))) "json:""performanceTradeoffs,omitempty"" xml:""performanceTradeoffs>performanceTradeoff,omitempty""" false;
    mkField "EthicalConsiderations" (TPtr (TSlice (TRef "MLModelCardEthicalConsideration"))) "json:""ethicalConsiderations,omitempty"" xml:""ethicalConsiderations>ethicalConsideration,omitempty""" false;
    mkField "EnvironmentalConsiderations" (TPtr (TRef "MLModelCardEnvironmentalConsiderations")) "json:""environmentalConsiderations,omitempty"" xml:""environmentalConsiderations,omitempty""" false;
    mkField "FairnessAssessments" (TPtr (TSlice (TRef "MLModelCardFairnessAssessment"))) "json:""fairnessAssessments,omitempty"" xml:""fairnessAssessments>fairnessAssessment,omitempty""" false ].
(** /repo/cyclonedx.go:1065-1070 *)
Definition fields_MLModelCard : list field :=
  [ mkField "BOMRef" (TStr) "json:""bom-ref,omitempty"" xml:""bom-ref,attr,omitempty""" false;
    mkField "ModelParameters" (TPtr (TRef "MLModelParameters")) "json:""modelParameters,omitempty"" xml:""modelParameters,omitempty""" false;
    mkField "QuantitativeAnalysis" (TPtr (TRef "MLQuantitativeAnalysis")) "json:""quantitativeAnalysis,omitempty"" xml:""quantitativeAnalysis,omitempty""" false;
    mkField "Considerations" (TPtr (TRef "MLModelCardConsiderations")) "json:""considerations,omitempty"" xml:""considerations,omitempty""" false ].
(** /repo/cyclonedx.go:368-382 *)
Definition fields_CryptoAlgorithmProperties : list field :=
  [ mkField "Primitive" (TStr) "json:""primitive,omitempty"" xml:""primitive,omitempty""" false;
    mkField "ParameterSetIdentifier" (TStr) "json:""parameterSetIdentifier,omitempty"" xml:""parameterSetIdentifier,omitempty""" false;
    mkField "AlgorithmFamily" (TStr) "json:""algorithmFamily,omitempty"" xml:""algorithmFamily,omitempty""" false;
    mkField "Curve" (TStr) "json:""curve,omitempty"" xml:""curve,omitempty""" false;
    mkField "EllipticCurve" (TStr) "json:""ellipticCurve,omitempty"" xml:""ellipticCurve,omitempty""" false;
    mkField "ExecutionEnvironment" (TStr) "json:""executionEnvironment,omitempty"" xml:""executionEnvironment,omitempty""" false;
    mkField "ImplementationPlatform" (TStr) "json:""implementationPlatform,omitempty"" xml:""implementationPlatform,omitempty""" false;
    mkField "CertificationLevel" (TPtr (TSlice (TStr))) "json:""certificationLevel,omitempty"" xml:""certificationLevel,omitempty""" false;
    mkField "Mode" (TStr) "json:""mode,omitempty"" xml:""mode,omitempty""" false;
    mkField "Padding" (TStr) "json:""padding,omitempty"" xml:""padding,omitempty""" false;
    mkField "CryptoFunctions" (TPtr (TSlice (TStr))) "json:""cryptoFunctions,omitempty"" xml:""cryptoFunctions>cryptoFunction,omitempty""" false;
    mkField "ClassicalSecurityLevel" (TPtr (TInt)) "json:""classicalSecurityLevel,omitempty"" xml:""classicalSecurityLevel,omitempty""" false;
    mkField "NistQuantumSecurityLevel" (TPtr (TInt)) "json:""nistQuantumSecurityLevel,omitempty"" xml:""nistQuantumSecurityLevel,omitempty""" false ].
(** /repo/cyclonedx.go:1880-1883 *)
Definition fields_PredefinedCertificateState : list field :=
  [ mkField "State" (TStr) "json:""state"" xml:""state""" false;
    mkField "Reason" (TStr) "json:""reason,omitempty"" xml:""reason,omitempty""" false ].
(** /repo/cyclonedx.go:1886-1890 *)
Definition fields_CustomCertificateState : list field :=
  [ mkField "Name" (TStr) "json:""name"" xml:""name""" false;
    mkField "Description" (TStr) "json:""description,omitempty"" xml:""description,omitempty""" false;
    mkField "Reason" (TStr) "json:""reason,omitempty"" xml:""reason,omitempty""" false ].
(** /repo/cyclonedx.go:1874-1877 *)
Definition fields_CertificateState : list field :=
  [ mkField "Predefined" (TPtr (TRef "PredefinedCertificateState")) "json:""-"" xml:""-""" false;
    mkField "Custom" (TPtr (TRef "CustomCertificateState")) "json:""-"" xml:""-""" false ].
(** /repo/cyclonedx.go:1913-1916 *)
Definition fields_CommonCertificateExtension : list field :=
  [ mkField "Name" (TStr) "json:""commonExtensionName"" xml:""commonExtensionName""" false;
    mkField "Value" (TStr) "json:""commonExtensionValue,omitempty"" xml:""commonExtensionValue,omitempty""" false ].
(** /repo/cyclonedx.go:1919-1922 *)
Definition fields_CustomCertificateExtension : list field :=
  [ mkField "Name" (TStr) "json:""customExtensionName"" xml:""customExtensionName""" false;
    mkField "Value" (TStr) "json:""customExtensionValue,omitempty"" xml:""customExtensionValue,omitempty""" false ].
(** /repo/cyclonedx.go:1907-1910 *)
Definition fields_CertificateExtension : list field :=
  [ mkField "Common" (TPtr (TRef "CommonCertificateExtension")) "json:""-"" xml:""-""" false;
    mkField "Custom" (TPtr (TRef "CustomCertificateExtension")) "json:""-"" xml:""-""" false ].
(** /repo/cyclonedx.go:1866-1869 *)
Definition fields_RelatedCryptographicAsset : list field :=
  [ mkField "Type" (TStr) "json:""type,omitempty"" xml:""type,omitempty""" false;
    mkField "Ref" (TStr) "json:""ref,omitempty"" xml:""ref,omitempty""" false ].
(** /repo/cyclonedx.go:171-191 *)
Definition fields_CertificateProperties : list field :=
  [ mkField "SerialNumber" (TStr) "json:""serialNumber,omitempty"" xml:""serialNumber,omitempty""" false;
    mkField "SubjectName" (TStr) "json:""subjectName,omitempty"" xml:""subjectName,omitempty""" false;
    mkField "IssuerName" (TStr) "json:""issuerName,omitempty"" xml:""issuerName,omitempty""" false;
    mkField "NotValidBefore" (TStr) "json:""notValidBefore,omitempty"" xml:""notValidBefore,omitempty""" false;
    mkField "NotValidAfter" (TStr) "json:""notValidAfter,omitempty"" xml:""notValidAfter,omitempty""" false;
    mkField "SignatureAlgorithmRef" (TRef "BOMReference") "json:""signatureAlgorithmRef,omitempty"" xml:""signatureAlgorithmRef,omitempty""" false;
    mkField "SubjectPublicKeyRef" (TRef "BOMReference") "json:""subjectPublicKeyRef,omitempty"" xml:""subjectPublicKeyRef,omitempty""" false;
    mkField "CertificateFormat" (TStr) "json:""certificateFormat,omitempty"" xml:""certificateFormat,omitempty""" false;
    mkField "CertificateExtension" (TStr) "json:""certificateExtension,omitempty"" xml:""certificateExtension,omitempty""" false;
    mkField "CertificateFileExtension" (TStr) "json:""certificateFileExtension,omitempty"" xml:""certificateFileExtension,omitempty""" false;
    mkField "Fingerprint" (TPtr (TRef "Hash")) "json:""fingerprint,omitempty"" xml:""fingerprint,omitempty""" false;
    mkField "CertificateState" (TPtr (TSlice (TRef "CertificateState"))) "json:""certificateState,omitempty"" xml:""certificateState,omitempty""" false;
    mkField "CertificateExtensions" (TPtr (TSlice (TRef "CertificateExtension"))) "json:""certificateExtensions,omitempty"" xml:""certificateExtensions>certificateExtension,omitempty""" false;
    mkField "RelatedCryptographicAssets" (TPtr (TSlice (TRef "RelatedCryptographicAsset"))) "json:""relatedCryptographicAssets,omitempty"" xml:""relatedCryptographicAssets>relatedCryptographicAsset,omitempty""" false;
    mkField "CreationDate" (TStr) "json:""creationDate,omitempty"" xml:""creationDate,omitempty""" false;
    mkField "ActivationDate" (TStr) "json:""activationDate,omitempty"" xml:""activationDate,omitempty""" false;
    mkField "DeactivationDate" (TStr) "json:""deactivationDate,omitempty"" xml:""deactivationDate,omitempty""" false;
    mkField "RevocationDate" (TStr) "json:""revocationDate,omitempty"" xml:""revocationDate,omitempty""" false;
    mkField "DestructionDate" (TStr) "json:""destructionDate,omitempty"" xml:""destructionDate,omitempty""" false ].
(** /repo/cyclonedx.go:546-549 *)
Definition fields_SecuredBy : list field :=
  [ mkField "Mechanism" (TStr) "json:""mechanism,omitempty"" xml:""mechanism,omitempty""" false;
    mkField "AlgorithmRef" (TRef "BOMReference") "json:""algorithmRef,omitempty"" xml:""algorithmRef,omitempty""" false ].
(** /repo/cyclonedx.go:1282-1297 *)
Definition fields_RelatedCryptoMaterialProperties : list field :=
  [ mkField "Type" (TStr) "json:""type,omitempty"" xml:""type,omitempty""" false;
    mkField "ID" (TStr) "json:""id,omitempty"" xml:""id,omitempty""" false;
    mkField "State" (TStr) "json:""state,omitempty"" xml:""state,omitempty""" false;
    mkField "AlgorithmRef" (TRef "BOMReference") "json:""algorithmRef,omitempty"" xml:""algorithmRef,omitempty""" false;
    mkField "CreationDate" (TStr) "json:""creationDate,omitempty"" xml:""creationDate,omitempty""" false;
    mkField "ActivationDate" (TStr) "json:""activationDate,omitempty"" xml:""activationDate,omitempty""" false;
    mkField "UpdateDate" (TStr) "json:""updateDate,omitempty"" xml:""updateDate,omitempty""" false;
    mkField "ExpirationDate" (TStr) "json:""expirationDate,omitempty"" xml:""expirationDate,omitempty""" false;
    mkField "Value" (TStr) "json:""value,omitempty"" xml:""value,omitempty""" false;
    mkField "Size" (TPtr (TInt)) "json:""size,omitempty"" xml:""size,omitempty""" false;
    mkField "Format" (TStr) "json:""format,omitempty"" xml:""format,omitempty""" false;
    mkField "SecuredBy" (TPtr (TRef "SecuredBy")) "json:""securedBy,omitempty"" xml:""securedBy,omitempty""" false;
    mkField "Fingerprint" (TPtr (TRef "Hash")) "json:""fingerprint,omitempty"" xml:""fingerprint,omitempty""" false;
    mkField "RelatedCryptographicAssets" (TPtr (TSlice (TRef "RelatedCryptographicAsset"))) "json:""relatedCryptographicAssets,omitempty"" xml:""relatedCryptographicAssets>relatedCryptographicAsset,omitempty""" false ].
(** /repo/cyclonedx.go:205-211 *)
Definition fields_CipherSuite : list field :=
  [ mkField "Name" (TStr) "json:""name,omitempty"" xml:""name,omitempty""" false;
    mkField "Algorithms" (TPtr (TSlice (TRef "BOMReference"))) "json:""algorithms,omitempty"" xml:""algorithms,omitempty""" false;
    mkField "Identifiers" (TPtr (TSlice (TStr))) "json:""identifiers,omitempty"" xml:""identifiers,omitempty""" false;
    mkField "TLSGroups" (TPtr (TSlice (TStr))) "json:""tlsGroups,omitempty"" xml:""tlsGroups>group,omitempty""" false;
    mkField "TLSSignatureSchemes" (TPtr (TSlice (TStr))) "json:""tlsSignatureSchemes,omitempty"" xml:""tlsSignatureSchemes>signatureScheme,omitempty""" false ].
(** /repo/cyclonedx.go:1834-1839 *)
Definition fields_IKEv2Enc : list field :=
  [ mkField "BOMRef" (TRef "BOMReference") "json:""-"" xml:""-""" false;
    mkField "Name" (TStr) "json:""name,omitempty"" xml:""name,omitempty""" false;
    mkField "KeyLength" (TPtr (TInt)) "json:""keyLength,omitempty"" xml:""keyLength,omitempty""" false;
    mkField "Algorithm" (TStr) "json:""algorithm,omitempty"" xml:""algorithm,omitempty""" false ].
(** /repo/cyclonedx.go:1859-1863 *)
Definition fields_IKEv2Prf : list field :=
  [ mkField "BOMRef" (TRef "BOMReference") "json:""-"" xml:""-""" false;
    mkField "Name" (TStr) "json:""name,omitempty"" xml:""name,omitempty""" false;
    mkField "Algorithm" (TStr) "json:""algorithm,omitempty"" xml:""algorithm,omitempty""" false ].
(** /repo/cyclonedx.go:1843-1847 *)
Definition fields_IKEv2Integ : list field :=
  [ mkField "BOMRef" (TRef "BOMReference") "json:""-"" xml:""-""" false;
    mkField "Name" (TStr) "json:""name,omitempty"" xml:""name,omitempty""" false;
    mkField "Algorithm" (TStr) "json:""algorithm,omitempty"" xml:""algorithm,omitempty""" false ].
(** /repo/cyclonedx.go:1851-1855 *)
Definition fields_IKEv2Ke : list field :=
  [ mkField "BOMRef" (TRef "BOMReference") "json:""-"" xml:""-""" false;
    mkField "Group" (TPtr (TInt)) "json:""group,omitempty"" xml:""group,omitempty""" false;
    mkField "Algorithm" (TStr) "json:""algorithm,omitempty"" xml:""algorithm,omitempty""" false ].
(** /repo/cyclonedx.go:1826-1830 *)
Definition fields_IKEv2Auth : list field :=
  [ mkField "BOMRef" (TRef "BOMReference") "json:""-"" xml:""-""" false;
    mkField "Name" (TStr) "json:""name,omitempty"" xml:""name,omitempty""" false;
    mkField "Algorithm" (TStr) "json:""algorithm,omitempty"" xml:""algorithm,omitempty""" false ].
(** /repo/cyclonedx.go:537-544 *)
Definition fields_IKEv2TransformTypes : list field :=
  [ mkField "Encr" (TPtr (TSlice (TRef "IKEv2Enc"))) "json:""encr,omitempty"" xml:""encr,omitempty""" false;
    mkField "PRF" (TPtr (TSlice (TRef "IKEv2Prf"))) "json:""prf,omitempty"" xml:""prf,omitempty""" false;
    mkField "Integ" (TPtr (TSlice (TRef "IKEv2Integ"))) "json:""integ,omitempty"" xml:""integ,omitempty""" false;
    mkField "KE" (TPtr (TSlice (TRef "IKEv2Ke"))) "json:""ke,omitempty"" xml:""ke,omitempty""" false;
    mkField "ESN" (TBool) "json:""esn"" xml:""esn""" false;
    mkField "Auth" (TPtr (TSlice (TRef "IKEv2Auth"))) "json:""auth,omitempty"" xml:""auth,omitempty""" false ].
(** /repo/cyclonedx.go:509-516 *)
Definition fields_CryptoProtocolProperties : list field :=
  [ mkField "Type" (TStr) "json:""type,omitempty"" xml:""type,omitempty""" false;
    mkField "Version" (TStr) "json:""version,omitempty"" xml:""version,omitempty""" false;
    mkField "CipherSuites" (TPtr (TSlice (TRef "CipherSuite"))) "json:""cipherSuites,omitempty"" xml:""cipherSuites,omitempty""" false;
    mkField "IKEv2TransformTypes" (TPtr (TRef "IKEv2TransformTypes")) "json:""ikev2TransformTypes,omitempty"" xml:""ikev2TransformTypes,omitempty""" false;
    mkField "CryptoRefArray" (TPtr (TSlice (TRef "BOMReference"))) "json:""cryptoRefArray,omitempty"" xml:""cryptoRefArray,omitempty""" false;
    mkField "RelatedCryptographicAssets" (TPtr (TSlice (TRef "RelatedCryptographicAsset"))) "json:""relatedCryptographicAssets,omitempty"" xml:""relatedCryptographicAssets>relatedCryptographicAsset,omitempty""" false ].
(** /repo/cyclonedx.go:500-507 *)
Definition fields_CryptoProperties : list field :=
  [ mkField "AssetType" (TStr) "json:""assetType"" xml:""assetType""" false;
    mkField "AlgorithmProperties" (TPtr (TRef "CryptoAlgorithmProperties")) "json:""algorithmProperties,omitempty"" xml:""algorithmProperties,omitempty""" false;
    mkField "CertificateProperties" (TPtr (TRef "CertificateProperties")) "json:""certificateProperties,omitempty"" xml:""certificateProperties,omitempty""" false;
    mkField "RelatedCryptoMaterialProperties" (TPtr (TRef "RelatedCryptoMaterialProperties")) "json:""relatedCryptoMaterialProperties,omitempty"" xml:""relatedCryptoMaterialProperties,omitempty""" false;
    mkField "ProtocolProperties" (TPtr (TRef "CryptoProtocolProperties")) "json:""protocolProperties,omitempty"" xml:""protocolProperties,omitempty""" false;
    mkField "OID" (TStr) "json:""oid,omitempty"" xml:""oid,omitempty""" false ].
(** /repo/cyclonedx.go:1772-1776 *)
Definition fields_AsserterChoice : list field :=
  [ mkField "Organization" (TPtr (TRef "OrganizationalEntity")) "json:""organization,omitempty"" xml:""organization,omitempty""" false;
    mkField "Individual" (TPtr (TRef "OrganizationalContact")) "json:""individual,omitempty"" xml:""contact,omitempty""" false;
    mkField "BOMRef" (TPtr (TRef "BOMReference")) "json:""ref,omitempty"" xml:""ref,omitempty""" false ].
(** /repo/cyclonedx.go:1779-1785 *)
Definition fields_PatentAssertion : list field :=
  [ mkField "BOMRef" (TStr) "json:""bom-ref,omitempty"" xml:""bom-ref,attr,omitempty""" false;
    mkField "PatentRefs" (TPtr (TSlice (TRef "BOMReference"))) "json:""patentRefs,omitempty"" xml:""patentRefs>bom-ref,omitempty""" false;
    mkField "AssertionType" (TStr) "json:""assertionType"" xml:""assertionType""" false;
    mkField "Asserter" (TPtr (TRef "AsserterChoice")) "json:""asserter"" xml:""asserter""" false;
    mkField "Notes" (TStr) "json:""notes,omitempty"" xml:""notes,omitempty""" false ].
(** /repo/cyclonedx.go:925-934 *)
Definition fields_JSFPublicKey : list field :=
  [ mkField "KTY" (TStr) "json:""kty,omitempty"" xml:""-""" false;
    mkField "CRV" (TStr) "json:""crv,omitempty"" xml:""-""" false;
    mkField "X" (TStr) "json:""x,omitempty"" xml:""-""" false;
    mkField "Y" (TStr) "json:""y,omitempty"" xml:""-""" false;
    mkField "N" (TStr) "json:""n,omitempty"" xml:""-""" false;
    mkField "E" (TStr) "json:""e,omitempty"" xml:""-""" false ].
(** /repo/cyclonedx.go:916-923 *)
Definition fields_JSFSigner : list field :=
  [ mkField "Algorithm" (TStr) "json:""algorithm"" xml:""-""" false;
    mkField "KeyID" (TStr) "json:""keyId,omitempty"" xml:""-""" false;
    mkField "PublicKey" (TRef "JSFPublicKey") "json:""publicKey,omitempty"" xml:""-""" false;
    mkField "CertificatePath" (TPtr (TSlice (TStr))) "json:""certificatePath,omitempty"" xml:""-""" false;
    mkField "Excludes" (TPtr (TSlice (TStr))) "json:""excludes,omitempty"" xml:""-""" false;
    mkField "Value" (TStr) "json:""value"" xml:""-""" false ].
(** /repo/cyclonedx.go:909-914 *)
Definition fields_JSFSignature : list field :=
  [ mkField "JSFSigner" (TPtr (TRef "JSFSigner")) "json:""-"" xml:""-""" true;
    mkField "Signers" (TPtr (TSlice (TRef "JSFSigner"))) "json:""signers,omitempty"" xml:""-""" false;
    mkField "Chain" (TPtr (TSlice (TRef "JSFSigner"))) "json:""chain,omitempty"" xml:""-""" false ].
(** /repo/cyclonedx.go:239-276 *)
Definition fields_Component : list field :=
  [ mkField "BOMRef" (TStr) "json:""bom-ref,omitempty"" xml:""bom-ref,attr,omitempty""" false;
    mkField "MIMEType" (TStr) "json:""mime-type,omitempty"" xml:""mime-type,attr,omitempty""" false;
    mkField "Type" (TStr) "json:""type"" xml:""type,attr""" false;
    mkField "Supplier" (TPtr (TRef "OrganizationalEntity")) "json:""supplier,omitempty"" xml:""supplier,omitempty""" false;
    mkField "Manufacturer" (TPtr (TRef "OrganizationalEntity")) "json:""manufacturer,omitempty"" xml:""manufacturer,omitempty""" false;
    mkField "Author" (TStr) "json:""author,omitempty"" xml:""author,omitempty""" false;
    mkField "Authors" (TPtr (TSlice (TRef "OrganizationalContact"))) "json:""authors,omitempty"" xml:""authors>author,omitempty""" false;
    mkField "Publisher" (TStr) "json:""publisher,omitempty"" xml:""publisher,omitempty""" false;
    mkField "Group" (TStr) "json:""group,omitempty"" xml:""group,omitempty""" false;
    mkField "Name" (TStr) "json:""name"" xml:""name""" false;
    mkField "Version" (TStr) "json:""version,omitempty"" xml:""version,omitempty""" false;
    mkField "Description" (TStr) "json:""description,omitempty"" xml:""description,omitempty""" false;
    mkField "Scope" (TStr) "json:""scope,omitempty"" xml:""scope,omitempty""" false;
    mkField "Hashes" (TPtr (TSlice (TRef "Hash"))) "json:""hashes,omitempty"" xml:""hashes>hash,omitempty""" false;
    mkField "Licenses" (TPtr (TRef "Licenses")) "json:""licenses,omitempty"" xml:""licenses,omitempty""" false;
    mkField "Copyright" (TStr) "json:""copyright,omitempty"" xml:""copyright,omitempty""" false;
    mkField "CPE" (TStr) "json:""cpe,omitempty"" xml:""cpe,omitempty""" false;
    mkField "PackageURL" (TStr) "json:""purl,omitempty"" xml:""purl,omitempty""" false;
    mkField "OmniborID" (TPtr (TSlice (TStr))) "json:""omniborId,omitempty"" xml:""omniborId,omitempty""" false;
    mkField "SWHID" (TPtr (TSlice (TStr))) "json:""swhid,omitempty"" xml:""swhid,omitempty""" false;
    mkField "SWID" (TPtr (TRef "SWID")) "json:""swid,omitempty"" xml:""swid,omitempty""" false;
    mkField "Modified" (TPtr (TBool)) "json:""modified,omitempty"" xml:""modified,omitempty""" false;
    mkField "Pedigree" (TPtr (TRef "Pedigree")) "json:""pedigree,omitempty"" xml:""pedigree,omitempty""" false;
    mkField "ExternalReferences" (TPtr (TSlice (TRef "ExternalReference"))) "json:""externalReferences,omitempty"" xml:""externalReferences>reference,omitempty""" false;
    mkField "Properties" (TPtr (TSlice (TRef "Property"))) "json:""properties,omitempty"" xml:""properties>property,omitempty""" false;
    mkField "Components" (TPtr (TSlice (TRef "Component"))) "json:""components,omitempty"" xml:""components>component,omitempty""" false;
    mkField "Evidence" (TPtr (TRef "Evidence")) "json:""evidence,omitempty"" xml:""evidence,omitempty""" false;
    mkField "ReleaseNotes" (TPtr (TRef "ReleaseNotes")) "json:""releaseNotes,omitempty"" xml:""releaseNotes,omitempty""" false;
    mkField "ModelCard" (TPtr (TRef "MLModelCard")) "json:""modelCard,omitempty"" xml:""modelCard,omitempty""" false;
    mkField "Data" (TPtr (TSlice (TRef "ComponentData"))) "json:""data,omitempty"" xml:""data,omitempty""" false;
    mkField "CryptoProperties" (TPtr (TRef "CryptoProperties")) "json:""cryptoProperties,omitempty"" xml:""cryptoProperties,omitempty""" false;
    mkField "Tags" (TPtr (TSlice (TStr))) "json:""tags,omitempty"" xml:""tags>tag,omitempty""" false;
    mkField "IsExternal" (TPtr (TBool)) "json:""isExternal,omitempty"" xml:""isExternal,omitempty""" false;
    mkField "PatentAssertions" (TPtr (TSlice (TRef "PatentAssertion"))) "json:""patentAssertions,omitempty"" xml:""patentAssertions>patentAssertion,omitempty""" false;
    mkField "VersionRange" (TStr) "json:""versionRange,omitempty"" xml:""versionRange,omitempty""" false;
    mkField "Signature" (TPtr (TRef "JSFSignature")) "json:""signature,omitempty"" xml:""-""" false ].
(** /repo/cyclonedx.go:551-559 *)
Definition fields_DataClassification : list field :=
  [ mkField "Flow" (TStr) "json:""flow"" xml:""flow,attr""" false;
    mkField "Classification" (TStr) "json:""classification"" xml:"",chardata""" false;
    mkField "Name" (TStr) "json:""name,omitempty"" xml:""name,attr,omitempty""" false;
    mkField "Description" (TStr) "json:""description,omitempty"" xml:""description,attr,omitempty""" false;
    mkField "Governance" (TPtr (TRef "DataGovernance")) "json:""governance,omitempty"" xml:""governance,omitempty""" false;
    mkField "Source" (TPtr (TSlice (TStr))) "json:""source,omitempty"" xml:""source>url,omitempty""" false;
    mkField "Destination" (TPtr (TSlice (TStr))) "json:""destination,omitempty"" xml:""destination>url,omitempty""" false ].
(** /repo/cyclonedx.go:1362-1382 *)
Definition fields_Service : list field :=
  [ mkField "BOMRef" (TStr) "json:""bom-ref,omitempty"" xml:""bom-ref,attr,omitempty""" false;
    mkField "Provider" (TPtr (TRef "OrganizationalEntity")) "json:""provider,omitempty"" xml:""provider,omitempty""" false;
    mkField "Group" (TStr) "json:""group,omitempty"" xml:""group,omitempty""" false;
    mkField "Name" (TStr) "json:""name"" xml:""name""" false;
    mkField "Version" (TStr) "json:""version,omitempty"" xml:""version,omitempty""" false;
    mkField "Description" (TStr) "json:""description,omitempty"" xml:""description,omitempty""" false;
    mkField "Endpoints" (TPtr (TSlice (TStr))) "json:""endpoints,omitempty"" xml:""endpoints>endpoint,omitempty""" false;
    mkField "Authenticated" (TPtr (TBool)) "json:""authenticated,omitempty"" xml:""authenticated,omitempty""" false;
    mkField "CrossesTrustBoundary" (TPtr (TBool)) "json:""x-trust-boundary,omitempty"" xml:""x-trust-boundary,omitempty""" false;
    mkField "Data" (TPtr (TSlice (TRef "DataClassification"))) "json:""data,omitempty"" xml:""data>dataflow,omitempty""" false;
    mkField "Licenses" (TPtr (TRef "Licenses")) "json:""licenses,omitempty"" xml:""licenses,omitempty""" false;
    mkField "ExternalReferences" (TPtr (TSlice (TRef "ExternalReference"))) "json:""externalReferences,omitempty"" xml:""externalReferences>reference,omitempty""" false;
    mkField "Properties" (TPtr (TSlice (TRef "Property"))) "json:""properties,omitempty"" xml:""properties>property,omitempty""" false;
    mkField "Services" (TPtr (TSlice (TRef "Service"))) "json:""services,omitempty"" xml:""services>service,omitempty""" false;
    mkField "ReleaseNotes" (TPtr (TRef "ReleaseNotes")) "json:""releaseNotes,omitempty"" xml:""releaseNotes,omitempty""" false;
    mkField "Tags" (TPtr (TSlice (TStr))) "json:""tags,omitempty"" xml:""tags>tag,omitempty""" false;
    mkField "TrustZone" (TStr) "json:""trustZone,omitempty"" xml:""trustZone,omitempty""" false;
    mkField "PatentAssertions" (TPtr (TSlice (TRef "PatentAssertion"))) "json:""patentAssertions,omitempty"" xml:""patentAssertions>patentAssertion,omitempty""" false;
    mkField "Signature" (TPtr (TRef "JSFSignature")) "json:""signature,omitempty"" xml:""-""" false ].
(** /repo/cyclonedx.go:60-65 *)
Definition fields_Annotator : list field :=
  [ mkField "Organization" (TPtr (TRef "OrganizationalEntity")) "json:""organization,omitempty"" xml:""organization,omitempty""" false;
    mkField "Individual" (TPtr (TRef "OrganizationalContact")) "json:""individual,omitempty"" xml:""individual,omitempty""" false;
    mkField "Component" (TPtr (TRef "Component")) "json:""component,omitempty"" xml:""component,omitempty""" false;
    mkField "Service" (TPtr (TRef "Service")) "json:""service,omitempty"" xml:""service,omitempty""" false ].
(** /repo/cyclonedx.go:51-58 *)
Definition fields_Annotation : list field :=
  [ mkField "BOMRef" (TStr) "json:""bom-ref,omitempty"" xml:""bom-ref,attr,omitempty""" false;
    mkField "Subjects" (TPtr (TSlice (TRef "BOMReference"))) "json:""subjects,omitempty"" xml:""subjects>subject,omitempty""" false;
    mkField "Annotator" (TPtr (TRef "Annotator")) "json:""annotator,omitempty"" xml:""annotator,omitempty""" false;
    mkField "Timestamp" (TStr) "json:""timestamp,omitempty"" xml:""timestamp,omitempty""" false;
    mkField "Text" (TStr) "json:""text,omitempty"" xml:""text,omitempty""" false;
    mkField "Signature" (TPtr (TRef "JSFSignature")) "json:""signature,omitempty"" xml:""-""" false ].
(** /repo/cyclonedx.go:67-71 *)
Definition fields_Assessor : list field :=
  [ mkField "BOMRef" (TRef "BOMReference") "json:""bom-ref,omitempty"" xml:""bom-ref,attr,omitempty""" false;
    mkField "ThirdParty" (TBool) "json:""thirdParty,omitempty"" xml:""thirdParty,omitempty""" false;
    mkField "Organization" (TPtr (TRef "OrganizationalEntity")) "json:""organization,omitempty"" xml:""organization,omitempty""" false ].
(** /repo/cyclonedx.go:94-98 *)
Definition fields_AttestationConformance : list field :=
  [ mkField "Score" (TPtr (TF64)) "json:""score,omitempty"" xml:""score,omitempty""" false;
    mkField "Rationale" (TStr) "json:""rationale,omitempty"" xml:""rationale,omitempty""" false;
    mkField "MitigationStrategies" (TPtr (TSlice (TRef "BOMReference"))) "json:""mitigationStrategies,omitempty"" xml:""mitigationStrategies>mitigationStrategy,omitempty""" false ].
(** /repo/cyclonedx.go:100-103 *)
Definition fields_AttestationConfidence : list field :=
  [ mkField "Score" (TPtr (TF64)) "json:""score,omitempty"" xml:""score,omitempty""" false;
    mkField "Rationale" (TStr) "json:""rationale,omitempty"" xml:""rationale,omitempty""" false ].
(** /repo/cyclonedx.go:86-92 *)
Definition fields_AttestationMap : list field :=
  [ mkField "Requirement" (TStr) "json:""requirement,omitempty"" xml:""requirement,omitempty""" false;
    mkField "Claims" (TPtr (TSlice (TRef "BOMReference"))) "json:""claims,omitempty"" xml:""claims>claim,omitempty""" false;
    mkField "CounterClaims" (TPtr (TSlice (TRef "BOMReference"))) "json:""counterClaims,omitempty"" xml:""counterClaims>counterClaim,omitempty""" false;
    mkField "Conformance" (TPtr (TRef "AttestationConformance")) "json:""conformance,omitempty"" xml:""conformance,omitempty""" false;
    mkField "Confidence" (TPtr (TRef "AttestationConfidence")) "json:""confidence,omitempty"" xml:""confidence,omitempty""" false ].
(** /repo/cyclonedx.go:79-84 *)
Definition fields_Attestation : list field :=
  [ mkField "Summary" (TStr) "json:""summary,omitempty"" xml:""summary,omitempty""" false;
    mkField "Assessor" (TRef "BOMReference") "json:""assessor,omitempty"" xml:""assessor,omitempty""" false;
    mkField "Map" (TPtr (TSlice (TRef "AttestationMap"))) "json:""map,omitempty"" xml:""map,omitempty""" false;
    mkField "Signature" (TPtr (TRef "JSFSignature")) "json:""signature,omitempty"" xml:""-""" false ].
(** /repo/cyclonedx.go:1006-1010 *)
Definition fields_Lifecycle : list field :=
  [ mkField "Name" (TStr) "json:""name,omitempty"" xml:""name,omitempty""" false;
    mkField "Phase" (TStr) "json:""phase,omitempty"" xml:""phase,omitempty""" false;
    mkField "Description" (TStr) "json:""description,omitempty"" xml:""description,omitempty""" false ].
(** /repo/cyclonedx.go:1594-1600 *)
Definition fields_Tool : list field :=
  [ mkField "Vendor" (TStr) "json:""vendor,omitempty"" xml:""vendor,omitempty""" false;
    mkField "Name" (TStr) "json:""name"" xml:""name""" false;
    mkField "Version" (TStr) "json:""version,omitempty"" xml:""version,omitempty""" false;
    mkField "Hashes" (TPtr (TSlice (TRef "Hash"))) "json:""hashes,omitempty"" xml:""hashes>hash,omitempty""" false;
    mkField "ExternalReferences" (TPtr (TSlice (TRef "ExternalReference"))) "json:""externalReferences,omitempty"" xml:""externalReferences>reference,omitempty""" false ].
(** /repo/cyclonedx.go:1610-1614 *)
Definition fields_ToolsChoice : list field :=
  [ mkField "Tools" (TPtr (TSlice (TRef "Tool"))) "json:""-"" xml:""-""" false;
    mkField "Components" (TPtr (TSlice (TRef "Component"))) "json:""-"" xml:""-""" false;
    mkField "Services" (TPtr (TSlice (TRef "Service"))) "json:""-"" xml:""-""" false ].
(** /repo/cyclonedx.go:1809-1811 *)
Definition fields_DistributionConstraints : list field :=
  [ mkField "TLP" (TStr) "json:""tlp,omitempty"" xml:""tlp,omitempty""" false ].
(** /repo/cyclonedx.go:1042-1054 *)
Definition fields_Metadata : list field :=
  [ mkField "Timestamp" (TStr) "json:""timestamp,omitempty"" xml:""timestamp,omitempty""" false;
    mkField "Lifecycles" (TPtr (TSlice (TRef "Lifecycle"))) "json:""lifecycles,omitempty"" xml:""lifecycles>lifecycle,omitempty""" false;
    mkField "Tools" (TPtr (TRef "ToolsChoice")) "json:""tools,omitempty"" xml:""tools,omitempty""" false;
    mkField "Authors" (TPtr (TSlice (TRef "OrganizationalContact"))) "json:""authors,omitempty"" xml:""authors>author,omitempty""" false;
    mkField "Component" (TPtr (TRef "Component")) "json:""component,omitempty"" xml:""component,omitempty""" false;
    mkField "Manufacture" (TPtr (TRef "OrganizationalEntity")) "json:""manufacture,omitempty"" xml:""manufacture,omitempty""" false;
    mkField "Manufacturer" (TPtr (TRef "OrganizationalEntity")) "json:""manufacturer,omitempty"" xml:""manufacturer,omitempty""" false;
    mkField "Supplier" (TPtr (TRef "OrganizationalEntity")) "json:""supplier,omitempty"" xml:""supplier,omitempty""" false;
    mkField "Licenses" (TPtr (TRef "Licenses")) "json:""licenses,omitempty"" xml:""licenses,omitempty""" false;
    mkField "Properties" (TPtr (TSlice (TRef "Property"))) "json:""properties,omitempty"" xml:""properties>property,omitempty""" false;
    mkField "DistributionConstraints" (TPtr (TRef "DistributionConstraints")) "json:""distributionConstraints,omitempty"" xml:""distributionConstraints,omitempty""" false ].
(** /repo/cyclonedx.go:644-648 *)
Definition fields_Dependency : list field :=
  [ mkField "Ref" (TStr) "json:""ref""" false;
    mkField "Dependencies" (TPtr (TSlice (TStr))) "json:""dependsOn,omitempty""" false;
    mkField "Provides" (TPtr (TSlice (TStr))) "json:""provides,omitempty""" false ].
(** /repo/cyclonedx.go:321-328 *)
Definition fields_Composition : list field :=
  [ mkField "BOMRef" (TStr) "json:""bom-ref,omitempty"" xml:""bom-ref,attr,omitempty""" false;
    mkField "Aggregate" (TStr) "json:""aggregate"" xml:""aggregate""" false;
    mkField "Assemblies" (TPtr (TSlice (TRef "BOMReference"))) "json:""assemblies,omitempty"" xml:""assemblies>assembly,omitempty""" false;
    mkField "Dependencies" (TPtr (TSlice (TRef "BOMReference"))) "json:""dependencies,omitempty"" xml:""dependencies>dependency,omitempty""" false;
    mkField "Vulnerabilities" (TPtr (TSlice (TRef "BOMReference"))) "json:""vulnerabilities,omitempty"" xml:""vulnerabilities>vulnerability,omitempty""" false;
    mkField "Signature" (TPtr (TRef "JSFSignature")) "json:""signature,omitempty"" xml:""-""" false ].
(** /repo/cyclonedx.go:1676-1679 *)
Definition fields_VulnerabilityReference : list field :=
  [ mkField "ID" (TStr) "json:""id,omitempty"" xml:""id,omitempty""" false;
    mkField "Source" (TPtr (TRef "Source")) "json:""source,omitempty"" xml:""source,omitempty""" false ].
(** /repo/cyclonedx.go:1667-1674 *)
Definition fields_VulnerabilityRating : list field :=
  [ mkField "Source" (TPtr (TRef "Source")) "json:""source,omitempty"" xml:""source,omitempty""" false;
    mkField "Score" (TPtr (TF64)) "json:""score,omitempty"" xml:""score,omitempty""" false;
    mkField "Severity" (TStr) "json:""severity,omitempty"" xml:""severity,omitempty""" false;
    mkField "Method" (TStr) "json:""method,omitempty"" xml:""method,omitempty""" false;
    mkField "Vector" (TStr) "json:""vector,omitempty"" xml:""vector,omitempty""" false;
    mkField "Justification" (TStr) "json:""justification,omitempty"" xml:""justification,omitempty""" false ].
(** /repo/cyclonedx.go:1271-1275 *)
Definition fields_ProofOfConcept : list field :=
  [ mkField "ReproductionSteps" (TStr) "json:""reproductionSteps,omitempty"" xml:""reproductionSteps,omitempty""" false;
    mkField "Environment" (TStr) "json:""environment,omitempty"" xml:""environment,omitempty""" false;
    mkField "SupportingMaterial" (TPtr (TSlice (TRef "AttachedText"))) "json:""supportingMaterial,omitempty"" xml:""supportingMaterial>attachment,omitempty""" false ].
(** /repo/cyclonedx.go:349-352 *)
Definition fields_Credits : list field :=
  [ mkField "Organizations" (TPtr (TSlice (TRef "OrganizationalEntity"))) "json:""organizations,omitempty"" xml:""organizations>organization,omitempty""" false;
    mkField "Individuals" (TPtr (TSlice (TRef "OrganizationalContact"))) "json:""individuals,omitempty"" xml:""individuals>individual,omitempty""" false ].
(** /repo/cyclonedx.go:1658-1665 *)
Definition fields_VulnerabilityAnalysis : list field :=
  [ mkField "State" (TStr) "json:""state,omitempty"" xml:""state,omitempty""" false;
    mkField "Justification" (TStr) "json:""justification,omitempty"" xml:""justification,omitempty""" false;
    mkField "Response" (TPtr (TSlice (TStr))) "json:""response,omitempty"" xml:""responses>response,omitempty""" false;
    mkField "Detail" (TStr) "json:""detail,omitempty"" xml:""detail,omitempty""" false;
    mkField "FirstIssued" (TStr) "json:""firstIssued,omitempty"" xml:""firstIssued,omitempty""" false;
    mkField "LastUpdated" (TStr) "json:""lastUpdated,omitempty"" xml:""lastUpdated,omitempty""" false ].
(** /repo/cyclonedx.go:1634-1656 *)
Definition fields_Vulnerability : list field :=
  [ mkField "BOMRef" (TStr) "json:""bom-ref,omitempty"" xml:""bom-ref,attr,omitempty""" false;
    mkField "ID" (TStr) "json:""id"" xml:""id""" false;
    mkField "Source" (TPtr (TRef "Source")) "json:""source,omitempty"" xml:""source,omitempty""" false;
    mkField "References" (TPtr (TSlice (TRef "VulnerabilityReference"))) "json:""references,omitempty"" xml:""references>reference,omitempty""" false;
    mkField "Ratings" (TPtr (TSlice (TRef "VulnerabilityRating"))) "json:""ratings,omitempty"" xml:""ratings>rating,omitempty""" false;
    mkField "CWEs" (TPtr (TSlice (TInt))) "json:""cwes,omitempty"" xml:""cwes>cwe,omitempty""" false;
    mkField "Description" (TStr) "json:""description,omitempty"" xml:""description,omitempty""" false;
    mkField "Detail" (TStr) "json:""detail,omitempty"" xml:""detail,omitempty""" false;
    mkField "Recommendation" (TStr) "json:""recommendation,omitempty"" xml:""recommendation,omitempty""" false;
    mkField "Workaround" (TStr) "json:""workaround,omitempty"" xml:""workaround,omitempty""" false;
    mkField "ProofOfConcept" (TPtr (TRef "ProofOfConcept")) "json:""proofOfConcept,omitempty"" xml:""proofOfConcept,omitempty""" false;
    mkField "Advisories" (TPtr (TSlice (TRef "Advisory"))) "json:""advisories,omitempty"" xml:""advisories>advisory,omitempty""" false;
    mkField "Created" (TStr) "json:""created,omitempty"" xml:""created,omitempty""" false;
    mkField "Published" (TStr) "json:""published,omitempty"" xml:""published,omitempty""" false;
    mkField "Updated" (TStr) "json:""updated,omitempty"" xml:""updated,omitempty""" false;
    mkField "Rejected" (TStr) "json:""rejected,omitempty"" xml:""rejected,omitempty""" false;
    mkField "Credits" (TPtr (TRef "Credits")) "json:""credits,omitempty"" xml:""credits,omitempty""" false;
    mkField "Tools" (TPtr (TRef "ToolsChoice")) "json:""tools,omitempty"" xml:""tools,omitempty""" false;
    mkField "Analysis" (TPtr (TRef "VulnerabilityAnalysis")) "json:""analysis,omitempty"" xml:""analysis,omitempty""" false;
    mkField "Affects" (TPtr (TSlice (TRef "Affects"))) "json:""affects,omitempty"" xml:""affects>target,omitempty""" false;
    mkField "Properties" (TPtr (TSlice (TRef "Property"))) "json:""properties,omitempty"" xml:""properties>property,omitempty""" false ].
(** /repo/cyclonedx.go:1337-1340 *)
Definition fields_ResourceReferenceChoice : list field :=
  [ mkField "Ref" (TStr) "json:""ref,omitempty"" xml:""ref,omitempty""" false;
    mkField "ExternalReference" (TPtr (TRef "ExternalReference")) "json:""externalReference,omitempty"" xml:""externalReference,omitempty""" false ].
(** /repo/cyclonedx.go:662-670 *)
Definition fields_Event : list field :=
  [ mkField "UID" (TStr) "json:""uid,omitempty"" xml:""uid,omitempty""" false;
    mkField "Description" (TStr) "json:""description,omitempty"" xml:""description,omitempty""" false;
    mkField "TimeReceived" (TStr) "json:""timeReceived,omitempty"" xml:""timeReceived,omitempty""" false;
    mkField "Data" (TPtr (TRef "AttachedText")) "json:""data,omitempty"" xml:""data,omitempty""" false;
    mkField "Source" (TPtr (TRef "ResourceReferenceChoice")) "json:""source,omitempty"" xml:""source,omitempty""" false;
    mkField "Target" (TPtr (TRef "ResourceReferenceChoice")) "json:""target,omitempty"" xml:""target,omitempty""" false;
    mkField "Properties" (TPtr (TSlice (TRef "Property"))) "json:""properties,omitempty"" xml:""properties>property,omitempty""" false ].
(** /repo/cyclonedx.go:1536-1540 *)
Definition fields_TaskTriggerCondition : list field :=
  [ mkField "Description" (TStr) "json:""description,omitempty"" xml:""description,omitempty""" false;
    mkField "Expression" (TStr) "json:""expression,omitempty"" xml:""expression,omitempty""" false;
    mkField "Properties" (TPtr (TSlice (TRef "Property"))) "json:""properties,omitempty"" xml:""properties>property,omitempty""" false ].
(** /repo/cyclonedx.go:1231-1235 *)
Definition fields_Parameter_t : list field :=
  [ mkField "Name" (TStr) "json:""name,omitempty"" xml:""name,omitempty""" false;
    mkField "Value" (TStr) "json:""value,omitempty"" xml:""value,omitempty""" false;
    mkField "DataType" (TStr) "json:""dataType,omitempty"" xml:""dataType,omitempty""" false ].
(** /repo/cyclonedx.go:1482-1490 *)
Definition fields_TaskInput : list field :=
  [ mkField "Resource" (TPtr (TRef "ResourceReferenceChoice")) "json:""resource,omitempty"" xml:""resource,omitempty""" false;
    mkField "Parameters" (TPtr (TSlice (TRef "Parameter"))) "json:""parameters,omitempty"" xml:""parameters>parameter,omitempty""" false;
    mkField "EnvironmentVars" (TPtr (TRef "EnvironmentVariables")) "json:""environmentVars,omitempty"" xml:""environmentVars,omitempty""" false;
    mkField "Data" (TPtr (TRef "AttachedText")) "json:""data,omitempty"" xml:""data,omitempty""" false;
    mkField "Source" (TPtr (TRef "ResourceReferenceChoice")) "json:""source,omitempty"" xml:""source,omitempty""" false;
    mkField "Target" (TPtr (TRef "ResourceReferenceChoice")) "json:""target,omitempty"" xml:""target,omitempty""" false;
    mkField "Properties" (TPtr (TSlice (TRef "Property"))) "json:""properties,omitempty"" xml:""properties>property,omitempty""" false ].
(** /repo/cyclonedx.go:1492-1501 *)
Definition fields_TaskOutput : list field :=
  [ mkField "Resource" (TPtr (TRef "ResourceReferenceChoice")) "json:""resource,omitempty"" xml:""resource,omitempty""" false;
    mkField "Parameters" (TPtr (TSlice (TRef "Parameter"))) "json:""parameters,omitempty"" xml:""parameters>parameter,omitempty""" false;
    mkField "EnvironmentVars" (TPtr (TRef "EnvironmentVariables")) "json:""environmentVars,omitempty"" xml:""environmentVars,omitempty""" false;
    mkField "Data" (TPtr (TRef "AttachedText")) "json:""data,omitempty"" xml:""data,omitempty""" false;
    mkField "Type" (TStr) "json:""type,omitempty"" xml:""type,omitempty""" false;
    mkField "Source" (TPtr (TRef "ResourceReferenceChoice")) "json:""source,omitempty"" xml:""source,omitempty""" false;
    mkField "Target" (TPtr (TRef "ResourceReferenceChoice")) "json:""target,omitempty"" xml:""target,omitempty""" false;
    mkField "Properties" (TPtr (TSlice (TRef "Property"))) "json:""properties,omitempty"" xml:""properties>property,omitempty""" false ].
(** /repo/cyclonedx.go:1521-1534 *)
Definition fields_TaskTrigger : list field :=
  [ mkField "BOMRef" (TStr) "json:""bom-ref,omitempty"" xml:""bom-ref,attr,omitempty""" false;
    mkField "UID" (TStr) "json:""uid,omitempty"" xml:""uid,omitempty""" false;
    mkField "Name" (TStr) "json:""name,omitempty"" xml:""name,omitempty""" false;
    mkField "Description" (TStr) "json:""description,omitempty"" xml:""description,omitempty""" false;
    mkField "ResourceReferences" (TPtr (TSlice (TRef "ResourceReferenceChoice"))) "json:""resourceReferences,omitempty"" xml:""resourceReferences>resourceReference,omitempty""" false;
    mkField "Type" (TStr) "json:""type,omitempty"" xml:""type,omitempty""" false;
    mkField "Event" (TPtr (TRef "Event")) "json:""event,omitempty"" xml:""event,omitempty""" false;
    mkField "Conditions" (TPtr (TSlice (TRef "TaskTriggerCondition"))) "json:""conditions,omitempty"" xml:""conditions>condition,omitempty""" false;
    mkField "TimeActivated" (TStr) "json:""timeActivated,omitempty"" xml:""timeActivated,omitempty""" false;
    mkField "Inputs" (TPtr (TSlice (TRef "TaskInput"))) "json:""inputs,omitempty"" xml:""inputs>input,omitempty""" false;
    mkField "Outputs" (TPtr (TSlice (TRef "TaskOutput"))) "json:""outputs,omitempty"" xml:""outputs>output,omitempty""" false;
    mkField "Properties" (TPtr (TSlice (TRef "Property"))) "json:""properties,omitempty"" xml:""properties>property,omitempty""" false ].
(** /repo/cyclonedx.go:1477-1480 *)
Definition fields_TaskCommand : list field :=
  [ mkField "Executed" (TStr) "json:""executed,omitempty"" xml:""executed,omitempty""" false;
    mkField "Properties" (TPtr (TSlice (TRef "Property"))) "json:""properties,omitempty"" xml:""properties>property,omitempty""" false ].
(** /repo/cyclonedx.go:1514-1519 *)
Definition fields_TaskStep : list field :=
  [ mkField "Name" (TStr) "json:""name,omitempty"" xml:""name,omitempty""" false;
    mkField "Description" (TStr) "json:""description,omitempty"" xml:""description,omitempty""" false;
    mkField "Commands" (TPtr (TSlice (TRef "TaskCommand"))) "json:""commands,omitempty"" xml:""commands>command,omitempty""" false;
    mkField "Properties" (TPtr (TSlice (TRef "Property"))) "json:""properties,omitempty"" xml:""properties>property,omitempty""" false ].
(** /repo/cyclonedx.go:1616-1625 *)
Definition fields_Volume : list field :=
  [ mkField "UID" (TStr) "json:""uid,omitempty"" xml:""uid,omitempty""" false;
    mkField "Name" (TStr) "json:""name,omitempty"" xml:""name,omitempty""" false;
    mkField "Mode" (TStr) "json:""mode,omitempty"" xml:""mode,omitempty""" false;
    mkField "Path" (TStr) "json:""path,omitempty"" xml:""path,omitempty""" false;
    mkField "SizeAllocated" (TStr) "json:""sizeAllocated,omitempty"" xml:""sizeAllocated,omitempty""" false;
    mkField "Persistent" (TPtr (TBool)) "json:""persistent,omitempty"" xml:""persistent,omitempty""" false;
    mkField "Remote" (TPtr (TBool)) "json:""remote,omitempty"" xml:""remote,omitempty""" false;
    mkField "Properties" (TPtr (TSlice (TRef "Property"))) "json:""properties,omitempty"" xml:""properties>property,omitempty""" false ].
(** /repo/cyclonedx.go:1568-1581 *)
Definition fields_TaskWorkspace : list field :=
  [ mkField "BOMRef" (TStr) "json:""bom-ref,omitempty"" xml:""bom-ref,attr,omitempty""" false;
    mkField "UID" (TStr) "json:""uid,omitempty"" xml:""uid,omitempty""" false;
    mkField "Name" (TStr) "json:""name,omitempty"" xml:""name,omitempty""" false;
    mkField "Aliases" (TPtr (TSlice (TStr))) "json:""aliases,omitempty"" xml:""aliases>alias,omitempty""" false;
    mkField "Description" (TStr) "json:""description,omitempty"" xml:""description,omitempty""" false;
    mkField "ResourceReferences" (TPtr (TSlice (TRef "ResourceReferenceChoice"))) "json:""resourceReferences,omitempty"" xml:""resourceReferences>resourceReference,omitempty""" false;
    mkField "AccessMode" (TStr) "json:""accessMode,omitempty"" xml:""accessMode,omitempty""" false;
    mkField "MountPath" (TStr) "json:""mountPath,omitempty"" xml:""mountPath,omitempty""" false;
    mkField "ManagedDataType" (TStr) "json:""managedDataType,omitempty"" xml:""managedDataType,omitempty""" false;
    mkField "VolumeRequest" (TStr) "json:""volumeRequest,omitempty"" xml:""volumeRequest,omitempty""" false;
    mkField "Volume" (TPtr (TRef "Volume")) "json:""volume,omitempty"" xml:""volume,omitempty""" false;
    mkField "Properties" (TPtr (TSlice (TRef "Property"))) "json:""properties,omitempty"" xml:""properties>property,omitempty""" false ].
(** /repo/cyclonedx.go:1459-1475 *)
Definition fields_Task : list field :=
  [ mkField "BOMRef" (TStr) "json:""bom-ref,omitempty"" xml:""bom-ref,attr,omitempty""" false;
    mkField "UID" (TStr) "json:""uid,omitempty"" xml:""uid,omitempty""" false;
    mkField "Name" (TStr) "json:""name,omitempty"" xml:""name,omitempty""" false;
    mkField "Description" (TStr) "json:""description,omitempty"" xml:""description,omitempty""" false;
    mkField "Properties" (TPtr (TSlice (TRef "Property"))) "json:""properties,omitempty"" xml:""properties>property,omitempty""" false;
    mkField "ResourceReferences" (TPtr (TSlice (TRef "ResourceReferenceChoice"))) "json:""resourceReferences,omitempty"" xml:""resourceReferences>resourceReference,omitempty""" false;
    mkField "TaskTypes" (TPtr (TSlice (TStr))) "json:""taskTypes,omitempty"" xml:""taskTypes>taskType,omitempty""" false;
    mkField "Trigger" (TPtr (TRef "TaskTrigger")) "json:""trigger,omitempty"" xml:""trigger,omitempty""" false;
    mkField "Steps" (TPtr (TSlice (TRef "TaskStep"))) "json:""steps,omitempty"" xml:""steps>step,omitempty""" false;
    mkField "Inputs" (TPtr (TSlice (TRef "TaskInput"))) "json:""inputs,omitempty"" xml:""inputs>input,omitempty""" false;
    mkField "Outputs" (TPtr (TSlice (TRef "TaskOutput"))) "json:""outputs,omitempty"" xml:""outputs>output,omitempty""" false;
    mkField "TimeStart" (TStr) "json:""timeStart,omitempty"" xml:""timeStart,omitempty""" false;
    mkField "TimeEnd" (TStr) "json:""timeEnd,omitempty"" xml:""timeEnd,omitempty""" false;
    mkField "Workspaces" (TPtr (TSlice (TRef "TaskWorkspace"))) "json:""workspaces,omitempty"" xml:""workspaces>workspace,omitempty""" false;
    mkField "RuntimeTopology" (TPtr (TSlice (TRef "Dependency"))) "json:""runtimeTopology,omitempty"" xml:""runtimeTopology>dependency,omitempty""" false ].
(** /repo/cyclonedx.go:1689-1707 *)
Definition fields_Workflow : list field :=
  [ mkField "BOMRef" (TStr) "json:""bom-ref,omitempty"" xml:""bom-ref,attr,omitempty""" false;
    mkField "UID" (TStr) "json:""uid,omitempty"" xml:""uid,omitempty""" false;
    mkField "Name" (TStr) "json:""name,omitempty"" xml:""name,omitempty""" false;
    mkField "Description" (TStr) "json:""description,omitempty"" xml:""description,omitempty""" false;
    mkField "ResourceReferences" (TPtr (TSlice (TRef "ResourceReferenceChoice"))) "json:""resourceReferences,omitempty"" xml:""resourceReferences>resourceReference,omitempty""" false;
    mkField "Tasks" (TPtr (TSlice (TRef "Task"))) "json:""tasks,omitempty"" xml:""tasks>task,omitempty""" false;
    mkField "TaskDependencies" (TPtr (TSlice (TRef "Dependency"))) "json:""taskDependencies,omitempty"" xml:""taskDependencies>dependency""" false;
    mkField "TaskTypes" (TPtr (TSlice (TStr))) "json:""taskTypes,omitempty"" xml:""taskTypes>taskType,omitempty""" false;
    mkField "Trigger" (TPtr (TRef "TaskTrigger")) "json:""trigger,omitempty"" xml:""trigger,omitempty""" false;
    mkField "Steps" (TPtr (TSlice (TRef "TaskStep"))) "json:""steps,omitempty"" xml:""steps>step,omitempty""" false;
    mkField "Inputs" (TPtr (TSlice (TRef "TaskInput"))) "json:""inputs,omitempty"" xml:""inputs>input,omitempty""" false;
    mkField "Outputs" (TPtr (TSlice (TRef "TaskOutput"))) "json:""outputs,omitempty"" xml:""outputs>output,omitempty""" false;
    mkField "TimeStart" (TStr) "json:""timeStart,omitempty"" xml:""timeStart,omitempty""" false;
    mkField "TimeEnd" (TStr) "json:""timeEnd,omitempty"" xml:""timeEnd,omitempty""" false;
    mkField "Workspaces" (TPtr (TSlice (TRef "TaskWorkspace"))) "json:""workspaces,omitempty"" xml:""workspaces>workspace,omitempty""" false;
    mkField "RuntimeTopology" (TPtr (TSlice (TRef "Dependency"))) "json:""runtimeTopology,omitempty"" xml:""runtimeTopology>dependency,omitempty""" false;
    mkField "Properties" (TPtr (TSlice (TRef "Property"))) "json:""properties,omitempty"" xml:""properties>property,omitempty""" false ].
(** /repo/cyclonedx.go:800-806 *)
Definition fields_Formula : list field :=
  [ mkField "BOMRef" (TStr) "json:""bom-ref,omitempty"" xml:""bom-ref,attr,omitempty""" false;
    mkField "Components" (TPtr (TSlice (TRef "Component"))) "json:""components,omitempty"" xml:""components>component,omitempty""" false;
    mkField "Services" (TPtr (TSlice (TRef "Service"))) "json:""services,omitempty"" xml:""services>service,omitempty""" false;
    mkField "Workflows" (TPtr (TSlice (TRef "Workflow"))) "json:""workflows,omitempty"" xml:""workflows>workflow,omitempty""" false;
    mkField "Properties" (TPtr (TSlice (TRef "Property"))) "json:""properties,omitempty"" xml:""properties>property,omitempty""" false ].
(** /repo/cyclonedx.go:193-203 *)
Definition fields_Claim : list field :=
  [ mkField "BOMRef" (TStr) "json:""bom-ref,omitempty"" xml:""bom-ref,attr,omitempty""" false;
    mkField "Target" (TRef "BOMReference") "json:""target,omitempty"" xml:""target,omitempty""" false;
    mkField "Predicate" (TStr) "json:""predicate,omitempty"" xml:""predicate,omitempty""" false;
    mkField "MitigationStrategies" (TPtr (TSlice (TRef "BOMReference"))) "json:""mitigationStrategies,omitempty"" xml:""mitigationStrategies>mitigationStrategy,omitempty""" false;
    mkField "Reasoning" (TStr) "json:""reasoning,omitempty"" xml:""reasoning,omitempty""" false;
    mkField "Evidence" (TPtr (TSlice (TRef "BOMReference"))) "json:""evidence,omitempty"" xml:""evidence,omitempty""" false;
    mkField "CounterEvidence" (TPtr (TSlice (TRef "BOMReference"))) "json:""counterEvidence,omitempty"" xml:""counterEvidence,omitempty""" false;
    mkField "ExternalReferences" (TPtr (TSlice (TRef "ExternalReference"))) "json:""externalReferences,omitempty"" xml:""externalReferences>reference,omitempty""" false;
    mkField "Signature" (TPtr (TRef "JSFSignature")) "json:""signature,omitempty"" xml:""-""" false ].
(** /repo/cyclonedx.go:619-622 *)
Definition fields_EvidenceDataContents : list field :=
  [ mkField "Attachment" (TPtr (TRef "AttachedText")) "json:""attachment,omitempty"" xml:""attachment,omitempty""" false;
    mkField "URL" (TStr) "json:""url,omitempty"" xml:""url,omitempty""" false ].
(** /repo/cyclonedx.go:611-617 *)
Definition fields_EvidenceData : list field :=
  [ mkField "Name" (TStr) "json:""name,omitempty"" xml:""name,omitempty""" false;
    mkField "Contents" (TPtr (TRef "EvidenceDataContents")) "json:""contents,omitempty"" xml:""contents,omitempty""" false;
    mkField "Classification" (TPtr (TRef "DataClassification")) "json:""classification,omitempty"" xml:""data>classification,omitempty""" false;
    mkField "SensitiveData" (TPtr (TSlice (TStr))) "json:""sensitiveData,omitempty"" xml:""sensitiveData,omitempty""" false;
    mkField "Governance" (TPtr (TRef "DataGovernance")) "json:""governance,omitempty"" xml:""governance,omitempty""" false ].
(** /repo/cyclonedx.go:586-596 *)
Definition fields_DeclarationEvidence : list field :=
  [ mkField "BOMRef" (TStr) "json:""bom-ref,omitempty"" xml:""bom-ref,attr,omitempty""" false;
    mkField "PropertyName" (TStr) "json:""propertyName,omitempty"" xml:""propertyName,omitempty""" false;
    mkField "Description" (TStr) "json:""description,omitempty"" xml:""description,omitempty""" false;
    mkField "Data" (TPtr (TSlice (TRef "EvidenceData"))) "json:""data,omitempty"" xml:""data,omitempty""" false;
    mkField "Created" (TStr) "json:""created,omitempty"" xml:""created,omitempty""" false;
    mkField "Expires" (TStr) "json:""expires,omitempty"" xml:""expires,omitempty""" false;
    mkField "Author" (TPtr (TRef "OrganizationalContact")) "json:""author,omitempty"" xml:""author,omitempty""" false;
    mkField "Reviewer" (TPtr (TRef "OrganizationalContact")) "json:""reviewer,omitempty"" xml:""reviewer,omitempty""" false;
    mkField "Signature" (TPtr (TRef "JSFSignature")) "json:""signature,omitempty"" xml:""-""" false ].
(** /repo/cyclonedx.go:624-628 *)
Definition fields_Targets : list field :=
  [ mkField "Organizations" (TPtr (TSlice (TRef "OrganizationalEntity"))) "json:""organizations,omitempty"" xml:""organizations>organization,omitempty""" false;
    mkField "Components" (TPtr (TSlice (TRef "Component"))) "json:""components,omitempty"" xml:""components>component,omitempty""" false;
    mkField "Services" (TPtr (TSlice (TRef "Service"))) "json:""services,omitempty"" xml:""services>service,omitempty""" false ].
(** /repo/cyclonedx.go:636-642 *)
Definition fields_Signatory : list field :=
  [ mkField "Name" (TStr) "json:""name,omitempty"" xml:""name,omitempty""" false;
    mkField "Role" (TStr) "json:""role,omitempty"" xml:""role,omitempty""" false;
    mkField "Signature" (TPtr (TRef "JSFSignature")) "json:""signature,omitempty"" xml:""-""" false;
    mkField "Organization" (TPtr (TRef "OrganizationalEntity")) "json:""organization,omitempty"" xml:""organization,omitempty""" false;
    mkField "ExternalReference" (TPtr (TRef "ExternalReference")) "json:""externalReference,omitempty"" xml:""externalReference,omitempty""" false ].
(** /repo/cyclonedx.go:630-634 *)
Definition fields_Affirmation : list field :=
  [ mkField "Statement" (TStr) "json:""statement,omitempty"" xml:""statement,omitempty""" false;
    mkField "Signatories" (TPtr (TSlice (TRef "Signatory"))) "json:""signatories,omitempty"" xml:""signatories>signatory,omitempty""" false;
    mkField "Signature" (TPtr (TRef "JSFSignature")) "json:""signature,omitempty"" xml:""-""" false ].
(** /repo/cyclonedx.go:576-584 *)
Definition fields_Declarations : list field :=
  [ mkField "Assessors" (TPtr (TSlice (TRef "Assessor"))) "json:""assessors,omitempty"" xml:""assessors>assessor,omitempty""" false;
    mkField "Attestations" (TPtr (TSlice (TRef "Attestation"))) "json:""attestations,omitempty"" xml:""attestations>attestation,omitempty""" false;
    mkField "Claims" (TPtr (TSlice (TRef "Claim"))) "json:""claims,omitempty"" xml:""claims>claim,omitempty""" false;
    mkField "Evidence" (TPtr (TSlice (TRef "DeclarationEvidence"))) "json:""evidence,omitempty"" xml:""evidence>evidence,omitempty""" false;
    mkField "Targets" (TPtr (TRef "Targets")) "json:""targets,omitempty"" xml:""targets,omitempty""" false;
    mkField "Affirmation" (TPtr (TRef "Affirmation")) "json:""affirmation,omitempty"" xml:""affirmation,omitempty""" false;
    mkField "Signature" (TPtr (TRef "JSFSignature")) "json:""signature,omitempty"" xml:""-""" false ].
(** /repo/cyclonedx.go:1429-1439 *)
Definition fields_StandardRequirement : list field :=
  [ mkField "BOMRef" (TStr) "json:""bom-ref,omitempty"" xml:""bom-ref,attr,omitempty""" false;
    mkField "Identifier" (TStr) "json:""identifier,omitempty"" xml:""identifier,omitempty""" false;
    mkField "Title" (TStr) "json:""title,omitempty"" xml:""title,omitempty""" false;
    mkField "Text" (TStr) "json:""text,omitempty"" xml:""text,omitempty""" false;
    mkField "Descriptions" (TPtr (TSlice (TStr))) "json:""descriptions,omitempty"" xml:""descriptions>description,omitempty""" false;
    mkField "OpenCRE" (TPtr (TSlice (TStr))) "json:""openCre,omitempty"" xml:""openCre,omitempty""" false;
    mkField "Parent" (TStr) "json:""parent,omitempty"" xml:""parent,omitempty""" false;
    mkField "Properties" (TPtr (TSlice (TRef "Property"))) "json:""properties,omitempty"" xml:""properties>property,omitempty""" false;
    mkField "ExternalReferences" (TPtr (TSlice (TRef "ExternalReference"))) "json:""externalReferences,omitempty"" xml:""externalReferences>reference,omitempty""" false ].
(** /repo/cyclonedx.go:1441-1447 *)
Definition fields_StandardLevel : list field :=
  [ mkField "BOMRef" (TStr) "json:""bom-ref,omitempty"" xml:""bom-ref,attr,omitempty""" false;
    mkField "Identifier" (TStr) "json:""identifier,omitempty"" xml:""identifier,omitempty""" false;
    mkField "Title" (TStr) "json:""title,omitempty"" xml:""title,omitempty""" false;
    mkField "Description" (TStr) "json:""description,omitempty"" xml:""description,omitempty""" false;
    mkField "Requirements" (TPtr (TSlice (TStr))) "json:""requirements,omitempty"" xml:""requirements>requirement,omitempty""" false ].
(** /repo/cyclonedx.go:1416-1427 *)
Definition fields_StandardDefinition : list field :=
  [ mkField "BOMRef" (TStr) "json:""bom-ref,omitempty"" xml:""bom-ref,attr,omitempty""" false;
    mkField "Name" (TStr) "json:""name,omitempty"" xml:""name,omitempty""" false;
    mkField "Version" (TStr) "json:""version,omitempty"" xml:""version,omitempty""" false;
    mkField "Description" (TStr) "json:""description,omitempty"" xml:""description,omitempty""" false;
    mkField "Owner" (TStr) "json:""owner,omitempty"" xml:""owner,omitempty""" false;
    mkField "Requirements" (TPtr (TSlice (TRef "StandardRequirement"))) "json:""requirements,omitempty"" xml:""requirements>requirement,omitempty""" false;
    mkField "Levels" (TPtr (TSlice (TRef "StandardLevel"))) "json:""levels,omitempty"" xml:""levels>level,omitempty""" false;
    mkField "ExternalReferences" (TPtr (TSlice (TRef "ExternalReference"))) "json:""externalReferences,omitempty"" xml:""externalReferences>reference,omitempty""" false;
    mkField "Signature" (TPtr (TRef "JSFSignature")) "json:""signature,omitempty"" xml:""-""" false ].
(** /repo/cyclonedx.go:1802-1806 *)
Definition fields_PriorityApplication : list field :=
  [ mkField "ApplicationNumber" (TStr) "json:""applicationNumber"" xml:""applicationNumber""" false;
    mkField "Jurisdiction" (TStr) "json:""jurisdiction"" xml:""jurisdiction""" false;
    mkField "FilingDate" (TStr) "json:""filingDate"" xml:""filingDate""" false ].
(** /repo/cyclonedx.go:1743-1758 *)
Definition fields_Patent : list field :=
  [ mkField "BOMRef" (TStr) "json:""bom-ref,omitempty"" xml:""bom-ref,attr,omitempty""" false;
    mkField "PatentNumber" (TStr) "json:""patentNumber"" xml:""patentNumber""" false;
    mkField "ApplicationNumber" (TStr) "json:""applicationNumber,omitempty"" xml:""applicationNumber,omitempty""" false;
    mkField "Jurisdiction" (TStr) "json:""jurisdiction"" xml:""jurisdiction""" false;
    mkField "PriorityApplication" (TPtr (TRef "PriorityApplication")) "json:""priorityApplication,omitempty"" xml:""priorityApplication,omitempty""" false;
    mkField "PublicationNumber" (TStr) "json:""publicationNumber,omitempty"" xml:""publicationNumber,omitempty""" false;
    mkField "Title" (TStr) "json:""title,omitempty"" xml:""title,omitempty""" false;
    mkField "Abstract" (TStr) "json:""abstract,omitempty"" xml:""abstract,omitempty""" false;
    mkField "FilingDate" (TStr) "json:""filingDate,omitempty"" xml:""filingDate,omitempty""" false;
    mkField "GrantDate" (TStr) "json:""grantDate,omitempty"" xml:""grantDate,omitempty""" false;
    mkField "PatentExpirationDate" (TStr) "json:""patentExpirationDate,omitempty"" xml:""patentExpirationDate,omitempty""" false;
    mkField "PatentLegalStatus" (TStr) "json:""patentLegalStatus"" xml:""patentLegalStatus""" false;
    mkField "PatentAssignee" (TPtr (TSlice (TRef "OrganizationalEntityOrContact"))) "json:""patentAssignee,omitempty"" xml:""patentAssignee,omitempty""" false;
    mkField "ExternalReferences" (TPtr (TSlice (TRef "ExternalReference"))) "json:""externalReferences,omitempty"" xml:""externalReferences>reference,omitempty""" false ].
(** /repo/cyclonedx.go:1761-1767 *)
Definition fields_PatentFamily : list field :=
  [ mkField "BOMRef" (TStr) "json:""bom-ref,omitempty"" xml:""bom-ref,attr,omitempty""" false;
    mkField "FamilyID" (TStr) "json:""familyId"" xml:""familyId""" false;
    mkField "PriorityApplication" (TPtr (TRef "PriorityApplication")) "json:""priorityApplication,omitempty"" xml:""priorityApplication,omitempty""" false;
    mkField "Members" (TPtr (TSlice (TRef "BOMReference"))) "json:""members,omitempty"" xml:""members>ref,omitempty""" false;
    mkField "ExternalReferences" (TPtr (TSlice (TRef "ExternalReference"))) "json:""externalReferences,omitempty"" xml:""externalReferences>reference,omitempty""" false ].
(** /repo/cyclonedx.go:606-609 *)
Definition fields_PatentChoice : list field :=
  [ mkField "Patent" (TPtr (TRef "Patent")) "json:""-"" xml:""-""" false;
    mkField "PatentFamily" (TPtr (TRef "PatentFamily")) "json:""-"" xml:""-""" false ].
(** /repo/cyclonedx.go:598-601 *)
Definition fields_Definitions : list field :=
  [ mkField "Standards" (TPtr (TSlice (TRef "StandardDefinition"))) "json:""standards,omitempty"" xml:""standards>standard,omitempty""" false;
    mkField "Patents" (TPtr (TSlice (TRef "PatentChoice"))) "json:""patents,omitempty"" xml:""-""" false ].
(** /repo/cyclonedx.go:1712-1721 *)
Definition fields_Citation : list field :=
  [ mkField "BOMRef" (TStr) "json:""bom-ref,omitempty"" xml:""bom-ref,attr,omitempty""" false;
    mkField "Pointers" (TPtr (TSlice (TStr))) "json:""pointers,omitempty"" xml:""pointers>pointer,omitempty""" false;
    mkField "Expressions" (TPtr (TSlice (TStr))) "json:""expressions,omitempty"" xml:""expressions>expression,omitempty""" false;
    mkField "Timestamp" (TStr) "json:""timestamp,omitempty"" xml:""timestamp,omitempty""" false;
    mkField "AttributedTo" (TPtr (TRef "BOMReference")) "json:""attributedTo,omitempty"" xml:""attributedTo,omitempty""" false;
    mkField "Process" (TStr) "json:""process,omitempty"" xml:""process,omitempty""" false;
    mkField "Note" (TStr) "json:""note,omitempty"" xml:""note,omitempty""" false;
    mkField "Signature" (TPtr (TRef "JSFSignature")) "json:""signature,omitempty"" xml:""-""" false ].
(** /repo/cyclonedx.go:105-131 *)
Definition fields_BOM : list field :=
  [ mkField "XMLName" (TRef "xml.Name") "json:""-"" xml:""bom""" false;
    mkField "XMLNS" (TStr) "json:""-"" xml:""xmlns,attr""" false;
    mkField "JSONSchema" (TStr) "json:""$schema,omitempty"" xml:""-""" false;
    mkField "BOMFormat" (TStr) "json:""bomFormat"" xml:""-""" false;
    mkField "SpecVersion" (TRef "SpecVersion") "json:""specVersion"" xml:""-""" false;
    mkField "SerialNumber" (TStr) "json:""serialNumber,omitempty"" xml:""serialNumber,attr,omitempty""" false;
    mkField "Version" (TInt) "json:""version"" xml:""version,attr""" false;
    mkField "Metadata" (TPtr (TRef "Metadata")) "json:""metadata,omitempty"" xml:""metadata,omitempty""" false;
    mkField "Components" (TPtr (TSlice (TRef "Component"))) "json:""components,omitempty"" xml:""components>component,omitempty""" false;
    mkField "Services" (TPtr (TSlice (TRef "Service"))) "json:""services,omitempty"" xml:""services>service,omitempty""" false;
    mkField "ExternalReferences" (TPtr (TSlice (TRef "ExternalReference"))) "json:""externalReferences,omitempty"" xml:""externalReferences>reference,omitempty""" false;
    mkField "Dependencies" (TPtr (TSlice (TRef "Dependency"))) "json:""dependencies,omitempty"" xml:""dependencies>dependency,omitempty""" false;
    mkField "Compositions" (TPtr (TSlice (TRef "Composition"))) "json:""compositions,omitempty"" xml:""compositions>composition,omitempty""" false;
    mkField "Properties" (TPtr (TSlice (TRef "Property"))) "json:""properties,omitempty"" xml:""properties>property,omitempty""" false;
    mkField "Vulnerabilities" (TPtr (TSlice (TRef "Vulnerability"))) "json:""vulnerabilities,omitempty"" xml:""vulnerabilities>vulnerability,omitempty""" false;
    mkField "Annotations" (TPtr (TSlice (TRef "Annotation"))) "json:""annotations,omitempty"" xml:""annotations>annotation,omitempty""" false;
    mkField "Formulation" (TPtr (TSlice (TRef "Formula"))) "json:""formulation,omitempty"" xml:""formulation>formula,omitempty""" false;
    mkField "Declarations" (TPtr (TRef "Declarations")) "json:""declarations,omitempty"" xml:""declarations,omitempty""" false;
    mkField "Definitions" (TPtr (TRef "Definitions")) "json:""definitions,omitempty"" xml:""definitions,omitempty""" false;
    mkField "Citations" (TPtr (TSlice (TRef "Citation"))) "json:""citations,omitempty"" xml:""citations>citation,omitempty""" false;
    mkField "Signature" (TPtr (TRef "JSFSignature")) "json:""signature,omitempty"" xml:""-""" false ].
(** /repo/cyclonedx_json.go:64-66 *)
Definition fields_mlDatasetChoiceRefJSON : list field :=
  [ mkField "Ref" (TStr) "json:""ref"" xml:""-""" false ].
(** /repo/cyclonedx_json.go:138-141 *)
Definition fields_toolsChoiceJSON : list field :=
  [ mkField "Components" (TPtr (TSlice (TRef "Component"))) "json:""components,omitempty"" xml:""-""" false;
    mkField "Services" (TPtr (TSlice (TRef "Service"))) "json:""services,omitempty"" xml:""-""" false ].
(** /repo/cyclonedx_xml.go:30-32 *)
Definition fields_bomReferenceXML : list field :=
  [ mkField "Ref" (TStr) "json:""-"" xml:""ref,attr""" false ].
(** /repo/cyclonedx_xml.go:62-66 *)
Definition fields_dependencyXML : list field :=
  [ mkField "Ref" (TStr) "xml:""ref,attr""" false;
    mkField "Dependencies" (TPtr (TSlice (TRef "dependencyXML"))) "xml:""dependency,omitempty""" false;
    mkField "Provides" (TPtr (TSlice (TRef "dependencyXML"))) "xml:""provides,omitempty""" false ].
(** /repo/cyclonedx_xml.go:201-205 *)
Definition fields_licenseExpressionXML : list field :=
  [ mkField "Expression" (TStr) "xml:"",chardata""" false;
    mkField "Acknowledgement" (TStr) "xml:""acknowledgement,attr,omitempty""" false;
    mkField "BOMRef" (TStr) "xml:""bom-ref,attr,omitempty""" false ].
(** /repo/cyclonedx_xml.go:208-213 *)
Definition fields_licenseExpressionDetailedXML : list field :=
  [ mkField "Expression" (TStr) "xml:""expression,attr""" false;
    mkField "Acknowledgement" (TStr) "xml:""acknowledgement,attr,omitempty""" false;
    mkField "BOMRef" (TStr) "xml:""bom-ref,attr,omitempty""" false;
    mkField "Details" (TSlice (TRef "licenseExpressionDetailXML")) "xml:""details""" false ].
(** /repo/cyclonedx_xml.go:215-219 *)
Definition fields_licenseExpressionDetailXML : list field :=
  [ mkField "LicenseIdentifier" (TStr) "xml:""license-identifier,attr""" false;
    mkField "Text" (TPtr (TRef "AttachedText")) "xml:""text,omitempty""" false;
    mkField "URL" (TStr) "xml:""url,omitempty""" false ].
(** /repo/cyclonedx_xml.go:347-349 *)
Definition fields_mlDatasetChoiceRefXML : list field :=
  [ mkField "Ref" (TStr) "json:""-"" xml:""ref""" false ].
(** /repo/cyclonedx_xml.go:351-354 *)
Definition fields_mlDatasetChoiceXML : list field :=
  [ mkField "Ref" (TStr) "json:""-"" xml:""ref""" false;
    mkField "ComponentData" (TRef "ComponentData") "" true ].
(** /repo/cyclonedx_xml.go:420-423 *)
Definition fields_predefinedCertificateStateXML : list field :=
  [ mkField "State" (TStr) "xml:""state""" false;
    mkField "Reason" (TStr) "xml:""reason,omitempty""" false ].
(** /repo/cyclonedx_xml.go:425-429 *)
Definition fields_customCertificateStateXML : list field :=
  [ mkField "Name" (TStr) "xml:""name""" false;
    mkField "Description" (TStr) "xml:""description,omitempty""" false;
    mkField "Reason" (TStr) "xml:""reason,omitempty""" false ].
(** /repo/cyclonedx_xml.go:476-479 *)
Definition fields_commonCertificateExtensionXML : list field :=
  [ mkField "Name" (TStr) "xml:""commonExtensionName""" false;
    mkField "Value" (TStr) "xml:""commonExtensionValue,omitempty""" false ].
(** /repo/cyclonedx_xml.go:481-484 *)
Definition fields_customCertificateExtensionXML : list field :=
  [ mkField "Name" (TStr) "xml:""customExtensionName""" false;
    mkField "Value" (TStr) "xml:""customExtensionValue,omitempty""" false ].
(** /repo/cyclonedx_xml.go:729-733 *)
Definition fields_toolsChoiceMarshalXML : list field :=
  [ mkField "LegacyTools" (TPtr (TSlice (TRef "Tool"))) "json:""-"" xml:""tool,omitempty""" false;
    mkField "Components" (TPtr (TSlice (TRef "Component"))) "json:""-"" xml:""components>component,omitempty""" false;
    mkField "Services" (TPtr (TSlice (TRef "Service"))) "json:""-"" xml:""services>service,omitempty""" false ].
(** /repo/cyclonedx_xml.go:743-746 *)
Definition fields_toolsChoiceUnmarshalXML : list field :=
  [ mkField "Components" (TPtr (TSlice (TRef "Component"))) "json:""-"" xml:""component,omitempty""" false;
    mkField "Services" (TPtr (TSlice (TRef "Service"))) "json:""-"" xml:""service,omitempty""" false ].
(** /repo/cyclonedx_xml.go:836-842 *)
Definition fields_EvidenceMarshalXML : list field :=
  [ mkField "Identity" (TPtr (TSlice (TRef "EvidenceIdentity"))) "json:""-"" xml:""identity,omitempty""" false;
    mkField "Occurrences" (TPtr (TSlice (TRef "EvidenceOccurrence"))) "json:""-"" xml:""occurrences>occurrence,omitempty""" false;
    mkField "Callstack" (TPtr (TRef "Callstack")) "json:""-"" xml:""callstack,omitempty""" false;
    mkField "Licenses" (TPtr (TRef "Licenses")) "json:""-"" xml:""licenses,omitempty""" false;
    mkField "Copyright" (TPtr (TSlice (TRef "Copyright"))) "json:""-"" xml:""copyright>text,omitempty""" false ].
(** /repo/cyclonedx_xml.go:846-849 *)
Definition fields_EvidenceUnmarshalXML : list field :=
  [ mkField "Occurrences" (TPtr (TSlice (TRef "EvidenceOccurrence"))) "json:""-"" xml:""occurrence,omitempty""" false;
    mkField "Copyright" (TPtr (TSlice (TRef "Copyright"))) "json:""-"" xml:""text,omitempty""" false ].

(** Named types with methods that are not structs, and every struct. *)
Definition defs : list (string * tdef) :=
  [ ("BOMReference", DAlias (TStr));
    ("EnvironmentVariables", DAlias (TSlice (TRef "EnvironmentVariableChoice")));
    ("Licenses", DAlias (TSlice (TRef "LicenseChoice")));
    ("SpecVersion", DAlias (TInt));
    ("xml.Name", DStruct fields_xmlName);
    ("Property", DStruct fields_Property);
    ("EnvironmentVariableChoice", DStruct fields_EnvironmentVariableChoice);
    ("AttachedText", DStruct fields_AttachedText);
    ("PostalAddress", DStruct fields_PostalAddress);
    ("OrganizationalContact", DStruct fields_OrganizationalContact);
    ("OrganizationalEntity", DStruct fields_OrganizationalEntity);
    ("OrganizationalEntityOrContact", DStruct fields_OrganizationalEntityOrContact);
    ("Licensing", DStruct fields_Licensing);
    ("License", DStruct fields_License);
    ("LicenseExpressionDetail", DStruct fields_LicenseExpressionDetail);
    ("LicenseChoice", DStruct fields_LicenseChoice);
    ("Advisory", DStruct fields_Advisory);
    ("AffectedVersions", DStruct fields_AffectedVersions);
    ("Affects", DStruct fields_Affects);
    ("Hash", DStruct fields_Hash);
    ("SWID", DStruct fields_SWID);
    ("IdentifiableAction", DStruct fields_IdentifiableAction);
    ("Commit", DStruct fields_Commit);
    ("Diff", DStruct fields_Diff);
    ("Source", DStruct fields_Source);
    ("Issue", DStruct fields_Issue);
    ("Patch", DStruct fields_Patch);
    ("Pedigree", DStruct fields_Pedigree);
    ("ExternalReference", DStruct fields_ExternalReference);
    ("EvidenceIdentityMethod", DStruct fields_EvidenceIdentityMethod);
    ("EvidenceIdentity", DStruct fields_EvidenceIdentity);
    ("EvidenceIdentityChoice", DStruct fields_EvidenceIdentityChoice);
    ("EvidenceOccurrence", DStruct fields_EvidenceOccurrence);
    ("CallstackFrame", DStruct fields_CallstackFrame);
    ("Callstack", DStruct fields_Callstack);
    ("Copyright", DStruct fields_Copyright);
    ("Evidence", DStruct fields_Evidence);
    ("Note", DStruct fields_Note);
    ("ReleaseNotes", DStruct fields_ReleaseNotes);
    ("MLModelParametersApproach", DStruct fields_MLModelParametersApproach);
    ("ComponentDataContents", DStruct fields_ComponentDataContents);
    ("ComponentDataGraphic", DStruct fields_ComponentDataGraphic);
    ("ComponentDataGraphics", DStruct fields_ComponentDataGraphics);
    ("ComponentDataGovernanceResponsibleParty", DStruct fields_ComponentDataGovernanceResponsibleParty);
    ("DataGovernance", DStruct fields_DataGovernance);
    ("ComponentData", DStruct fields_ComponentData);
    ("MLDatasetChoice", DStruct fields_MLDatasetChoice);
    ("MLInputOutputParameters", DStruct fields_MLInputOutputParameters);
    ("MLModelParameters", DStruct fields_MLModelParameters);
    ("MLPerformanceMetricConfidenceInterval", DStruct fields_MLPerformanceMetricConfidenceInterval);
    ("MLPerformanceMetric", DStruct fields_MLPerformanceMetric);
    ("MLQuantitativeAnalysis", DStruct fields_MLQuantitativeAnalysis);
    ("MLModelCardEthicalConsideration", DStruct fields_MLModelCardEthicalConsideration);
    ("MLModelEnergyMeasure", DStruct fields_MLModelEnergyMeasure);
    ("MLModelEnergyProvider", DStruct fields_MLModelEnergyProvider);
    ("MLModelCO2Measure", DStruct fields_MLModelCO2Measure);
    ("MLModelEnergyConsumption", DStruct fields_MLModelEnergyConsumption);
    ("MLModelCardEnvironmentalConsiderations", DStruct fields_MLModelCardEnvironmentalConsiderations);
    ("MLModelCardFairnessAssessment", DStruct fields_MLModelCardFairnessAssessment);
    ("MLModelCardConsiderations", DStruct fields_MLModelCardConsiderations);
    ("MLModelCard", DStruct fields_MLModelCard);
    ("CryptoAlgorithmProperties", DStruct fields_CryptoAlgorithmProperties);
    ("PredefinedCertificateState", DStruct fields_PredefinedCertificateState);
    ("CustomCertificateState", DStruct fields_CustomCertificateState);
    ("CertificateState", DStruct fields_CertificateState);
    ("CommonCertificateExtension", DStruct fields_CommonCertificateExtension);
    ("CustomCertificateExtension", DStruct fields_CustomCertificateExtension);
    ("CertificateExtension", DStruct fields_CertificateExtension);
    ("RelatedCryptographicAsset", DStruct fields_RelatedCryptographicAsset);
    ("CertificateProperties", DStruct fields_CertificateProperties);
    ("SecuredBy", DStruct fields_SecuredBy);
    ("RelatedCryptoMaterialProperties", DStruct fields_RelatedCryptoMaterialProperties);
    ("CipherSuite", DStruct fields_CipherSuite);
    ("IKEv2Enc", DStruct fields_IKEv2Enc);
    ("IKEv2Prf", DStruct fields_IKEv2Prf);
    ("IKEv2Integ", DStruct fields_IKEv2Integ);
    ("IKEv2Ke", DStruct fields_IKEv2Ke);
    ("IKEv2Auth", DStruct fields_IKEv2Auth);
    ("IKEv2TransformTypes", DStruct fields_IKEv2TransformTypes);
    ("CryptoProtocolProperties", DStruct fields_CryptoProtocolProperties);
    ("CryptoProperties", DStruct fields_CryptoProperties);
    ("AsserterChoice", DStruct fields_AsserterChoice);
    ("PatentAssertion", DStruct fields_PatentAssertion);
    ("JSFPublicKey", DStruct fields_JSFPublicKey);
    ("JSFSigner", DStruct fields_JSFSigner);
    ("JSFSignature", DStruct fields_JSFSignature);
    ("Component", DStruct fields_Component);
    ("DataClassification", DStruct fields_DataClassification);
    ("Service", DStruct fields_Service);
    ("Annotator", DStruct fields_Annotator);
    ("Annotation", DStruct fields_Annotation);
    ("Assessor", DStruct fields_Assessor);
    ("AttestationConformance", DStruct fields_AttestationConformance);
    ("AttestationConfidence", DStruct fields_AttestationConfidence);
    ("AttestationMap", DStruct fields_AttestationMap);
    ("Attestation", DStruct fields_Attestation);
    ("Lifecycle", DStruct fields_Lifecycle);
    ("Tool", DStruct fields_Tool);
    ("ToolsChoice", DStruct fields_ToolsChoice);
    ("DistributionConstraints", DStruct fields_DistributionConstraints);
    ("Metadata", DStruct fields_Metadata);
    ("Dependency", DStruct fields_Dependency);
    ("Composition", DStruct fields_Composition);
    ("VulnerabilityReference", DStruct fields_VulnerabilityReference);
    ("VulnerabilityRating", DStruct fields_VulnerabilityRating);
    ("ProofOfConcept", DStruct fields_ProofOfConcept);
    ("Credits", DStruct fields_Credits);
    ("VulnerabilityAnalysis", DStruct fields_VulnerabilityAnalysis);
    ("Vulnerability", DStruct fields_Vulnerability);
    ("ResourceReferenceChoice", DStruct fields_ResourceReferenceChoice);
    ("Event", DStruct fields_Event);
    ("TaskTriggerCondition", DStruct fields_TaskTriggerCondition);
    ("Parameter", DStruct fields_Parameter_t);
    ("TaskInput", DStruct fields_TaskInput);
    ("TaskOutput", DStruct fields_TaskOutput);
    ("TaskTrigger", DStruct fields_TaskTrigger);
    ("TaskCommand", DStruct fields_TaskCommand);
    ("TaskStep", DStruct fields_TaskStep);
    ("Volume", DStruct fields_Volume);
    ("TaskWorkspace", DStruct fields_TaskWorkspace);
    ("Task", DStruct fields_Task);
    ("Workflow", DStruct fields_Workflow);
    ("Formula", DStruct fields_Formula);
    ("Claim", DStruct fields_Claim);
    ("EvidenceDataContents", DStruct fields_EvidenceDataContents);
    ("EvidenceData", DStruct fields_EvidenceData);
    ("DeclarationEvidence", DStruct fields_DeclarationEvidence);
    ("Targets", DStruct fields_Targets);
    ("Signatory", DStruct fields_Signatory);
    ("Affirmation", DStruct fields_Affirmation);
    ("Declarations", DStruct fields_Declarations);
    ("StandardRequirement", DStruct fields_StandardRequirement);
    ("StandardLevel", DStruct fields_StandardLevel);
    ("StandardDefinition", DStruct fields_StandardDefinition);
    ("PriorityApplication", DStruct fields_PriorityApplication);
    ("Patent", DStruct fields_Patent);
    ("PatentFamily", DStruct fields_PatentFamily);
    ("PatentChoice", DStruct fields_PatentChoice);
    ("Definitions", DStruct fields_Definitions);
    ("Citation", DStruct fields_Citation);
    ("BOM", DStruct fields_BOM);
    ("mlDatasetChoiceRefJSON", DStruct fields_mlDatasetChoiceRefJSON);
    ("toolsChoiceJSON", DStruct fields_toolsChoiceJSON);
    ("bomReferenceXML", DStruct fields_bomReferenceXML);
    ("dependencyXML", DStruct fields_dependencyXML);
    ("licenseExpressionXML", DStruct fields_licenseExpressionXML);
    ("licenseExpressionDetailedXML", DStruct fields_licenseExpressionDetailedXML);
    ("licenseExpressionDetailXML", DStruct fields_licenseExpressionDetailXML);
    ("mlDatasetChoiceRefXML", DStruct fields_mlDatasetChoiceRefXML);
    ("mlDatasetChoiceXML", DStruct fields_mlDatasetChoiceXML);
    ("predefinedCertificateStateXML", DStruct fields_predefinedCertificateStateXML);
    ("customCertificateStateXML", DStruct fields_customCertificateStateXML);
    ("commonCertificateExtensionXML", DStruct fields_commonCertificateExtensionXML);
    ("customCertificateExtensionXML", DStruct fields_customCertificateExtensionXML);
    ("toolsChoiceMarshalXML", DStruct fields_toolsChoiceMarshalXML);
    ("toolsChoiceUnmarshalXML", DStruct fields_toolsChoiceUnmarshalXML);
    ("EvidenceMarshalXML", DStruct fields_EvidenceMarshalXML);
    ("EvidenceUnmarshalXML", DStruct fields_EvidenceUnmarshalXML) ].
