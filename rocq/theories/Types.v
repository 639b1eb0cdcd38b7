(** GENERATED by tools/gen_types.py from /repo/cyclonedx.go: one record per Go struct,
    one field per Go field, in declaration order; named string types are strings.
    [set_T_F v x] is the assignment x.F = v, [over_T_F f x] is x.F = f(x.F). [zero_T] is the zero value. *)
From Verif Require Import Base.
Local Open Scope string_scope.

(** float32 / float64 values. A finite value is identified with the shortest
    decimal [(-1)^neg * m * 10^e] that denotes it ([m] not divisible by ten, or
    zero with [e = 0]); binary rounding is not modelled. *)
Inductive gofloat := FFin (neg : bool) (m : N) (e : Z) | FInf (neg : bool) | FNaN.
Definition fzero := FFin false 0 0.

(** encoding/xml Name *)
Record XMLName := mkXMLName { XMLName_Space : string; XMLName_Local : string }.

(** /repo/cyclonedx.go:143 *)
Definition BOMFileFormat := Z.
(** /repo/cyclonedx.go:155 *)
Definition BOMReference := string.
(** /repo/cyclonedx.go:213 *)
Definition ComponentType := string.
(** /repo/cyclonedx.go:311 *)
Definition ComponentDataType := string.
(** /repo/cyclonedx.go:330 *)
Definition CompositionAggregate := string.
(** /repo/cyclonedx.go:354 *)
Definition CryptoAlgorithmMode := string.
(** /repo/cyclonedx.go:384 *)
Definition CryptoAssetType := string.
(** /repo/cyclonedx.go:393 *)
Definition CryptoCertificationLevel := string.
(** /repo/cyclonedx.go:427 *)
Definition CryptoExecutionEnvironment := string.
(** /repo/cyclonedx.go:438 *)
Definition CryptoFunction := string.
(** /repo/cyclonedx.go:456 *)
Definition CryptoKeyState := string.
(** /repo/cyclonedx.go:467 *)
Definition CryptoPadding := string.
(** /repo/cyclonedx.go:479 *)
Definition CryptoPrimitive := string.
(** /repo/cyclonedx.go:518 *)
Definition CryptoProtocolType := string.
(** /repo/cyclonedx.go:561 *)
Definition DataFlow := string.
(** /repo/cyclonedx.go:1277-1280 *)
Record Property := mkProperty {
  Property_Name : string;
  Property_Value : string
}.
Definition set_Property_Name (v : string) (x : Property) : Property :=
  mkProperty v (Property_Value x).
Definition set_Property_Value (v : string) (x : Property) : Property :=
  mkProperty (Property_Name x) v.
Definition over_Property_Name (f : string -> string) (x : Property) : Property := set_Property_Name (f (Property_Name x)) x.
Definition over_Property_Value (f : string -> string) (x : Property) : Property := set_Property_Value (f (Property_Value x)) x.
Definition zero_Property : Property := mkProperty ("") ("").

(** /repo/cyclonedx.go:657-660 *)
Record EnvironmentVariableChoice := mkEnvironmentVariableChoice {
  EnvironmentVariableChoice_Property : ptr (Property);
  EnvironmentVariableChoice_Value : string
}.
Definition set_EnvironmentVariableChoice_Property (v : ptr (Property)) (x : EnvironmentVariableChoice) : EnvironmentVariableChoice :=
  mkEnvironmentVariableChoice v (EnvironmentVariableChoice_Value x).
Definition set_EnvironmentVariableChoice_Value (v : string) (x : EnvironmentVariableChoice) : EnvironmentVariableChoice :=
  mkEnvironmentVariableChoice (EnvironmentVariableChoice_Property x) v.
Definition over_EnvironmentVariableChoice_Property (f : ptr (Property) -> ptr (Property)) (x : EnvironmentVariableChoice) : EnvironmentVariableChoice := set_EnvironmentVariableChoice_Property (f (EnvironmentVariableChoice_Property x)) x.
Definition over_EnvironmentVariableChoice_Value (f : string -> string) (x : EnvironmentVariableChoice) : EnvironmentVariableChoice := set_EnvironmentVariableChoice_Value (f (EnvironmentVariableChoice_Value x)) x.
Definition zero_EnvironmentVariableChoice : EnvironmentVariableChoice := mkEnvironmentVariableChoice (None) ("").

(** /repo/cyclonedx.go:655 *)
Definition EnvironmentVariables := slice (EnvironmentVariableChoice).
(** /repo/cyclonedx.go:696 *)
Definition EvidenceIdentityFieldType := string.
(** /repo/cyclonedx.go:716 *)
Definition EvidenceIdentityTechnique := string.
(** /repo/cyclonedx.go:748 *)
Definition ExternalReferenceType := string.
(** /repo/cyclonedx.go:813 *)
Definition HashAlgorithm := string.
(** /repo/cyclonedx.go:838 *)
Definition ImpactAnalysisJustification := string.
(** /repo/cyclonedx.go:852 *)
Definition ImpactAnalysisResponse := string.
(** /repo/cyclonedx.go:862 *)
Definition ImpactAnalysisState := string.
(** /repo/cyclonedx.go:873 *)
Definition ImplementationPlatform := string.
(** /repo/cyclonedx.go:901 *)
Definition IssueType := string.
(** /repo/cyclonedx.go:947 *)
Definition LicenseAcknowledgement := string.
(** /repo/cyclonedx.go:73-77 *)
Record AttachedText := mkAttachedText {
  AttachedText_Content : string;
  AttachedText_ContentType : string;
  AttachedText_Encoding : string
}.
Definition set_AttachedText_Content (v : string) (x : AttachedText) : AttachedText :=
  mkAttachedText v (AttachedText_ContentType x) (AttachedText_Encoding x).
Definition set_AttachedText_ContentType (v : string) (x : AttachedText) : AttachedText :=
  mkAttachedText (AttachedText_Content x) v (AttachedText_Encoding x).
Definition set_AttachedText_Encoding (v : string) (x : AttachedText) : AttachedText :=
  mkAttachedText (AttachedText_Content x) (AttachedText_ContentType x) v.
Definition over_AttachedText_Content (f : string -> string) (x : AttachedText) : AttachedText := set_AttachedText_Content (f (AttachedText_Content x)) x.
Definition over_AttachedText_ContentType (f : string -> string) (x : AttachedText) : AttachedText := set_AttachedText_ContentType (f (AttachedText_ContentType x)) x.
Definition over_AttachedText_Encoding (f : string -> string) (x : AttachedText) : AttachedText := set_AttachedText_Encoding (f (AttachedText_Encoding x)) x.
Definition zero_AttachedText : AttachedText := mkAttachedText ("") ("") ("").

(** /repo/cyclonedx.go:1261-1269 *)
Record PostalAddress := mkPostalAddress {
  PostalAddress_BOMRef : string;
  PostalAddress_Country : string;
  PostalAddress_Region : string;
  PostalAddress_Locality : string;
  PostalAddress_PostOfficeBoxNumber : string;
  PostalAddress_PostalCode : string;
  PostalAddress_StreetAddress : string
}.
Definition set_PostalAddress_BOMRef (v : string) (x : PostalAddress) : PostalAddress :=
  mkPostalAddress v (PostalAddress_Country x) (PostalAddress_Region x) (PostalAddress_Locality x) (PostalAddress_PostOfficeBoxNumber x) (PostalAddress_PostalCode x) (PostalAddress_StreetAddress x).
Definition set_PostalAddress_Country (v : string) (x : PostalAddress) : PostalAddress :=
  mkPostalAddress (PostalAddress_BOMRef x) v (PostalAddress_Region x) (PostalAddress_Locality x) (PostalAddress_PostOfficeBoxNumber x) (PostalAddress_PostalCode x) (PostalAddress_StreetAddress x).
Definition set_PostalAddress_Region (v : string) (x : PostalAddress) : PostalAddress :=
  mkPostalAddress (PostalAddress_BOMRef x) (PostalAddress_Country x) v (PostalAddress_Locality x) (PostalAddress_PostOfficeBoxNumber x) (PostalAddress_PostalCode x) (PostalAddress_StreetAddress x).
Definition set_PostalAddress_Locality (v : string) (x : PostalAddress) : PostalAddress :=
  mkPostalAddress (PostalAddress_BOMRef x) (PostalAddress_Country x) (PostalAddress_Region x) v (PostalAddress_PostOfficeBoxNumber x) (PostalAddress_PostalCode x) (PostalAddress_StreetAddress x).
Definition set_PostalAddress_PostOfficeBoxNumber (v : string) (x : PostalAddress) : PostalAddress :=
  mkPostalAddress (PostalAddress_BOMRef x) (PostalAddress_Country x) (PostalAddress_Region x) (PostalAddress_Locality x) v (PostalAddress_PostalCode x) (PostalAddress_StreetAddress x).
Definition set_PostalAddress_PostalCode (v : string) (x : PostalAddress) : PostalAddress :=
  mkPostalAddress (PostalAddress_BOMRef x) (PostalAddress_Country x) (PostalAddress_Region x) (PostalAddress_Locality x) (PostalAddress_PostOfficeBoxNumber x) v (PostalAddress_StreetAddress x).
Definition set_PostalAddress_StreetAddress (v : string) (x : PostalAddress) : PostalAddress :=
  mkPostalAddress (PostalAddress_BOMRef x) (PostalAddress_Country x) (PostalAddress_Region x) (PostalAddress_Locality x) (PostalAddress_PostOfficeBoxNumber x) (PostalAddress_PostalCode x) v.
Definition over_PostalAddress_BOMRef (f : string -> string) (x : PostalAddress) : PostalAddress := set_PostalAddress_BOMRef (f (PostalAddress_BOMRef x)) x.
Definition over_PostalAddress_Country (f : string -> string) (x : PostalAddress) : PostalAddress := set_PostalAddress_Country (f (PostalAddress_Country x)) x.
Definition over_PostalAddress_Region (f : string -> string) (x : PostalAddress) : PostalAddress := set_PostalAddress_Region (f (PostalAddress_Region x)) x.
Definition over_PostalAddress_Locality (f : string -> string) (x : PostalAddress) : PostalAddress := set_PostalAddress_Locality (f (PostalAddress_Locality x)) x.
Definition over_PostalAddress_PostOfficeBoxNumber (f : string -> string) (x : PostalAddress) : PostalAddress := set_PostalAddress_PostOfficeBoxNumber (f (PostalAddress_PostOfficeBoxNumber x)) x.
Definition over_PostalAddress_PostalCode (f : string -> string) (x : PostalAddress) : PostalAddress := set_PostalAddress_PostalCode (f (PostalAddress_PostalCode x)) x.
Definition over_PostalAddress_StreetAddress (f : string -> string) (x : PostalAddress) : PostalAddress := set_PostalAddress_StreetAddress (f (PostalAddress_StreetAddress x)) x.
Definition zero_PostalAddress : PostalAddress := mkPostalAddress ("") ("") ("") ("") ("") ("") ("").

(** /repo/cyclonedx.go:1211-1216 *)
Record OrganizationalContact := mkOrganizationalContact {
  OrganizationalContact_BOMRef : string;
  OrganizationalContact_Name : string;
  OrganizationalContact_Email : string;
  OrganizationalContact_Phone : string
}.
Definition set_OrganizationalContact_BOMRef (v : string) (x : OrganizationalContact) : OrganizationalContact :=
  mkOrganizationalContact v (OrganizationalContact_Name x) (OrganizationalContact_Email x) (OrganizationalContact_Phone x).
Definition set_OrganizationalContact_Name (v : string) (x : OrganizationalContact) : OrganizationalContact :=
  mkOrganizationalContact (OrganizationalContact_BOMRef x) v (OrganizationalContact_Email x) (OrganizationalContact_Phone x).
Definition set_OrganizationalContact_Email (v : string) (x : OrganizationalContact) : OrganizationalContact :=
  mkOrganizationalContact (OrganizationalContact_BOMRef x) (OrganizationalContact_Name x) v (OrganizationalContact_Phone x).
Definition set_OrganizationalContact_Phone (v : string) (x : OrganizationalContact) : OrganizationalContact :=
  mkOrganizationalContact (OrganizationalContact_BOMRef x) (OrganizationalContact_Name x) (OrganizationalContact_Email x) v.
Definition over_OrganizationalContact_BOMRef (f : string -> string) (x : OrganizationalContact) : OrganizationalContact := set_OrganizationalContact_BOMRef (f (OrganizationalContact_BOMRef x)) x.
Definition over_OrganizationalContact_Name (f : string -> string) (x : OrganizationalContact) : OrganizationalContact := set_OrganizationalContact_Name (f (OrganizationalContact_Name x)) x.
Definition over_OrganizationalContact_Email (f : string -> string) (x : OrganizationalContact) : OrganizationalContact := set_OrganizationalContact_Email (f (OrganizationalContact_Email x)) x.
Definition over_OrganizationalContact_Phone (f : string -> string) (x : OrganizationalContact) : OrganizationalContact := set_OrganizationalContact_Phone (f (OrganizationalContact_Phone x)) x.
Definition zero_OrganizationalContact : OrganizationalContact := mkOrganizationalContact ("") ("") ("") ("").

(** /repo/cyclonedx.go:1218-1224 *)
Record OrganizationalEntity := mkOrganizationalEntity {
  OrganizationalEntity_BOMRef : string;
  OrganizationalEntity_Name : string;
  OrganizationalEntity_Address : ptr (PostalAddress);
  OrganizationalEntity_URL : ptr (slice (string));
  OrganizationalEntity_Contact : ptr (slice (OrganizationalContact))
}.
Definition set_OrganizationalEntity_BOMRef (v : string) (x : OrganizationalEntity) : OrganizationalEntity :=
  mkOrganizationalEntity v (OrganizationalEntity_Name x) (OrganizationalEntity_Address x) (OrganizationalEntity_URL x) (OrganizationalEntity_Contact x).
Definition set_OrganizationalEntity_Name (v : string) (x : OrganizationalEntity) : OrganizationalEntity :=
  mkOrganizationalEntity (OrganizationalEntity_BOMRef x) v (OrganizationalEntity_Address x) (OrganizationalEntity_URL x) (OrganizationalEntity_Contact x).
Definition set_OrganizationalEntity_Address (v : ptr (PostalAddress)) (x : OrganizationalEntity) : OrganizationalEntity :=
  mkOrganizationalEntity (OrganizationalEntity_BOMRef x) (OrganizationalEntity_Name x) v (OrganizationalEntity_URL x) (OrganizationalEntity_Contact x).
Definition set_OrganizationalEntity_URL (v : ptr (slice (string))) (x : OrganizationalEntity) : OrganizationalEntity :=
  mkOrganizationalEntity (OrganizationalEntity_BOMRef x) (OrganizationalEntity_Name x) (OrganizationalEntity_Address x) v (OrganizationalEntity_Contact x).
Definition set_OrganizationalEntity_Contact (v : ptr (slice (OrganizationalContact))) (x : OrganizationalEntity) : OrganizationalEntity :=
  mkOrganizationalEntity (OrganizationalEntity_BOMRef x) (OrganizationalEntity_Name x) (OrganizationalEntity_Address x) (OrganizationalEntity_URL x) v.
Definition over_OrganizationalEntity_BOMRef (f : string -> string) (x : OrganizationalEntity) : OrganizationalEntity := set_OrganizationalEntity_BOMRef (f (OrganizationalEntity_BOMRef x)) x.
Definition over_OrganizationalEntity_Name (f : string -> string) (x : OrganizationalEntity) : OrganizationalEntity := set_OrganizationalEntity_Name (f (OrganizationalEntity_Name x)) x.
Definition over_OrganizationalEntity_Address (f : ptr (PostalAddress) -> ptr (PostalAddress)) (x : OrganizationalEntity) : OrganizationalEntity := set_OrganizationalEntity_Address (f (OrganizationalEntity_Address x)) x.
Definition over_OrganizationalEntity_URL (f : ptr (slice (string)) -> ptr (slice (string))) (x : OrganizationalEntity) : OrganizationalEntity := set_OrganizationalEntity_URL (f (OrganizationalEntity_URL x)) x.
Definition over_OrganizationalEntity_Contact (f : ptr (slice (OrganizationalContact)) -> ptr (slice (OrganizationalContact))) (x : OrganizationalEntity) : OrganizationalEntity := set_OrganizationalEntity_Contact (f (OrganizationalEntity_Contact x)) x.
Definition zero_OrganizationalEntity : OrganizationalEntity := mkOrganizationalEntity ("") ("") (None) (None) (None).

(** /repo/cyclonedx.go:1226-1229 *)
Record OrganizationalEntityOrContact := mkOrganizationalEntityOrContact {
  OrganizationalEntityOrContact_Organization : ptr (OrganizationalEntity);
  OrganizationalEntityOrContact_Individual : ptr (OrganizationalContact)
}.
Definition set_OrganizationalEntityOrContact_Organization (v : ptr (OrganizationalEntity)) (x : OrganizationalEntityOrContact) : OrganizationalEntityOrContact :=
  mkOrganizationalEntityOrContact v (OrganizationalEntityOrContact_Individual x).
Definition set_OrganizationalEntityOrContact_Individual (v : ptr (OrganizationalContact)) (x : OrganizationalEntityOrContact) : OrganizationalEntityOrContact :=
  mkOrganizationalEntityOrContact (OrganizationalEntityOrContact_Organization x) v.
Definition over_OrganizationalEntityOrContact_Organization (f : ptr (OrganizationalEntity) -> ptr (OrganizationalEntity)) (x : OrganizationalEntityOrContact) : OrganizationalEntityOrContact := set_OrganizationalEntityOrContact_Organization (f (OrganizationalEntityOrContact_Organization x)) x.
Definition over_OrganizationalEntityOrContact_Individual (f : ptr (OrganizationalContact) -> ptr (OrganizationalContact)) (x : OrganizationalEntityOrContact) : OrganizationalEntityOrContact := set_OrganizationalEntityOrContact_Individual (f (OrganizationalEntityOrContact_Individual x)) x.
Definition zero_OrganizationalEntityOrContact : OrganizationalEntityOrContact := mkOrganizationalEntityOrContact (None) (None).

(** /repo/cyclonedx.go:974 *)
Definition LicenseType := string.
(** /repo/cyclonedx.go:995-1004 *)
Record Licensing := mkLicensing {
  Licensing_AltIDs : ptr (slice (string));
  Licensing_Licensor : ptr (OrganizationalEntityOrContact);
  Licensing_Licensee : ptr (OrganizationalEntityOrContact);
  Licensing_Purchaser : ptr (OrganizationalEntityOrContact);
  Licensing_PurchaseOrder : string;
  Licensing_LicenseTypes : ptr (slice (LicenseType));
  Licensing_LastRenewal : string;
  Licensing_Expiration : string
}.
Definition set_Licensing_AltIDs (v : ptr (slice (string))) (x : Licensing) : Licensing :=
  mkLicensing v (Licensing_Licensor x) (Licensing_Licensee x) (Licensing_Purchaser x) (Licensing_PurchaseOrder x) (Licensing_LicenseTypes x) (Licensing_LastRenewal x) (Licensing_Expiration x).
Definition set_Licensing_Licensor (v : ptr (OrganizationalEntityOrContact)) (x : Licensing) : Licensing :=
  mkLicensing (Licensing_AltIDs x) v (Licensing_Licensee x) (Licensing_Purchaser x) (Licensing_PurchaseOrder x) (Licensing_LicenseTypes x) (Licensing_LastRenewal x) (Licensing_Expiration x).
Definition set_Licensing_Licensee (v : ptr (OrganizationalEntityOrContact)) (x : Licensing) : Licensing :=
  mkLicensing (Licensing_AltIDs x) (Licensing_Licensor x) v (Licensing_Purchaser x) (Licensing_PurchaseOrder x) (Licensing_LicenseTypes x) (Licensing_LastRenewal x) (Licensing_Expiration x).
Definition set_Licensing_Purchaser (v : ptr (OrganizationalEntityOrContact)) (x : Licensing) : Licensing :=
  mkLicensing (Licensing_AltIDs x) (Licensing_Licensor x) (Licensing_Licensee x) v (Licensing_PurchaseOrder x) (Licensing_LicenseTypes x) (Licensing_LastRenewal x) (Licensing_Expiration x).
Definition set_Licensing_PurchaseOrder (v : string) (x : Licensing) : Licensing :=
  mkLicensing (Licensing_AltIDs x) (Licensing_Licensor x) (Licensing_Licensee x) (Licensing_Purchaser x) v (Licensing_LicenseTypes x) (Licensing_LastRenewal x) (Licensing_Expiration x).
Definition set_Licensing_LicenseTypes (v : ptr (slice (LicenseType))) (x : Licensing) : Licensing :=
  mkLicensing (Licensing_AltIDs x) (Licensing_Licensor x) (Licensing_Licensee x) (Licensing_Purchaser x) (Licensing_PurchaseOrder x) v (Licensing_LastRenewal x) (Licensing_Expiration x).
Definition set_Licensing_LastRenewal (v : string) (x : Licensing) : Licensing :=
  mkLicensing (Licensing_AltIDs x) (Licensing_Licensor x) (Licensing_Licensee x) (Licensing_Purchaser x) (Licensing_PurchaseOrder x) (Licensing_LicenseTypes x) v (Licensing_Expiration x).
Definition set_Licensing_Expiration (v : string) (x : Licensing) : Licensing :=
  mkLicensing (Licensing_AltIDs x) (Licensing_Licensor x) (Licensing_Licensee x) (Licensing_Purchaser x) (Licensing_PurchaseOrder x) (Licensing_LicenseTypes x) (Licensing_LastRenewal x) v.
Definition over_Licensing_AltIDs (f : ptr (slice (string)) -> ptr (slice (string))) (x : Licensing) : Licensing := set_Licensing_AltIDs (f (Licensing_AltIDs x)) x.
Definition over_Licensing_Licensor (f : ptr (OrganizationalEntityOrContact) -> ptr (OrganizationalEntityOrContact)) (x : Licensing) : Licensing := set_Licensing_Licensor (f (Licensing_Licensor x)) x.
Definition over_Licensing_Licensee (f : ptr (OrganizationalEntityOrContact) -> ptr (OrganizationalEntityOrContact)) (x : Licensing) : Licensing := set_Licensing_Licensee (f (Licensing_Licensee x)) x.
Definition over_Licensing_Purchaser (f : ptr (OrganizationalEntityOrContact) -> ptr (OrganizationalEntityOrContact)) (x : Licensing) : Licensing := set_Licensing_Purchaser (f (Licensing_Purchaser x)) x.
Definition over_Licensing_PurchaseOrder (f : string -> string) (x : Licensing) : Licensing := set_Licensing_PurchaseOrder (f (Licensing_PurchaseOrder x)) x.
Definition over_Licensing_LicenseTypes (f : ptr (slice (LicenseType)) -> ptr (slice (LicenseType))) (x : Licensing) : Licensing := set_Licensing_LicenseTypes (f (Licensing_LicenseTypes x)) x.
Definition over_Licensing_LastRenewal (f : string -> string) (x : Licensing) : Licensing := set_Licensing_LastRenewal (f (Licensing_LastRenewal x)) x.
Definition over_Licensing_Expiration (f : string -> string) (x : Licensing) : Licensing := set_Licensing_Expiration (f (Licensing_Expiration x)) x.
Definition zero_Licensing : Licensing := mkLicensing (None) (None) (None) (None) ("") (None) ("") ("").

(** /repo/cyclonedx.go:936-945 *)
Record License := mkLicense {
  License_BOMRef : string;
  License_ID : string;
  License_Name : string;
  License_Acknowledgement : LicenseAcknowledgement;
  License_Text : ptr (AttachedText);
  License_URL : string;
  License_Licensing : ptr (Licensing);
  License_Properties : ptr (slice (Property))
}.
Definition set_License_BOMRef (v : string) (x : License) : License :=
  mkLicense v (License_ID x) (License_Name x) (License_Acknowledgement x) (License_Text x) (License_URL x) (License_Licensing x) (License_Properties x).
Definition set_License_ID (v : string) (x : License) : License :=
  mkLicense (License_BOMRef x) v (License_Name x) (License_Acknowledgement x) (License_Text x) (License_URL x) (License_Licensing x) (License_Properties x).
Definition set_License_Name (v : string) (x : License) : License :=
  mkLicense (License_BOMRef x) (License_ID x) v (License_Acknowledgement x) (License_Text x) (License_URL x) (License_Licensing x) (License_Properties x).
Definition set_License_Acknowledgement (v : LicenseAcknowledgement) (x : License) : License :=
  mkLicense (License_BOMRef x) (License_ID x) (License_Name x) v (License_Text x) (License_URL x) (License_Licensing x) (License_Properties x).
Definition set_License_Text (v : ptr (AttachedText)) (x : License) : License :=
  mkLicense (License_BOMRef x) (License_ID x) (License_Name x) (License_Acknowledgement x) v (License_URL x) (License_Licensing x) (License_Properties x).
Definition set_License_URL (v : string) (x : License) : License :=
  mkLicense (License_BOMRef x) (License_ID x) (License_Name x) (License_Acknowledgement x) (License_Text x) v (License_Licensing x) (License_Properties x).
Definition set_License_Licensing (v : ptr (Licensing)) (x : License) : License :=
  mkLicense (License_BOMRef x) (License_ID x) (License_Name x) (License_Acknowledgement x) (License_Text x) (License_URL x) v (License_Properties x).
Definition set_License_Properties (v : ptr (slice (Property))) (x : License) : License :=
  mkLicense (License_BOMRef x) (License_ID x) (License_Name x) (License_Acknowledgement x) (License_Text x) (License_URL x) (License_Licensing x) v.
Definition over_License_BOMRef (f : string -> string) (x : License) : License := set_License_BOMRef (f (License_BOMRef x)) x.
Definition over_License_ID (f : string -> string) (x : License) : License := set_License_ID (f (License_ID x)) x.
Definition over_License_Name (f : string -> string) (x : License) : License := set_License_Name (f (License_Name x)) x.
Definition over_License_Acknowledgement (f : LicenseAcknowledgement -> LicenseAcknowledgement) (x : License) : License := set_License_Acknowledgement (f (License_Acknowledgement x)) x.
Definition over_License_Text (f : ptr (AttachedText) -> ptr (AttachedText)) (x : License) : License := set_License_Text (f (License_Text x)) x.
Definition over_License_URL (f : string -> string) (x : License) : License := set_License_URL (f (License_URL x)) x.
Definition over_License_Licensing (f : ptr (Licensing) -> ptr (Licensing)) (x : License) : License := set_License_Licensing (f (License_Licensing x)) x.
Definition over_License_Properties (f : ptr (slice (Property)) -> ptr (slice (Property))) (x : License) : License := set_License_Properties (f (License_Properties x)) x.
Definition zero_License : License := mkLicense ("") ("") ("") ("") (None) ("") (None) (None).

(** /repo/cyclonedx.go:967-972 *)
Record LicenseExpressionDetail := mkLicenseExpressionDetail {
  LicenseExpressionDetail_LicenseIdentifier : string;
  LicenseExpressionDetail_BOMRef : string;
  LicenseExpressionDetail_Text : ptr (AttachedText);
  LicenseExpressionDetail_URL : string
}.
Definition set_LicenseExpressionDetail_LicenseIdentifier (v : string) (x : LicenseExpressionDetail) : LicenseExpressionDetail :=
  mkLicenseExpressionDetail v (LicenseExpressionDetail_BOMRef x) (LicenseExpressionDetail_Text x) (LicenseExpressionDetail_URL x).
Definition set_LicenseExpressionDetail_BOMRef (v : string) (x : LicenseExpressionDetail) : LicenseExpressionDetail :=
  mkLicenseExpressionDetail (LicenseExpressionDetail_LicenseIdentifier x) v (LicenseExpressionDetail_Text x) (LicenseExpressionDetail_URL x).
Definition set_LicenseExpressionDetail_Text (v : ptr (AttachedText)) (x : LicenseExpressionDetail) : LicenseExpressionDetail :=
  mkLicenseExpressionDetail (LicenseExpressionDetail_LicenseIdentifier x) (LicenseExpressionDetail_BOMRef x) v (LicenseExpressionDetail_URL x).
Definition set_LicenseExpressionDetail_URL (v : string) (x : LicenseExpressionDetail) : LicenseExpressionDetail :=
  mkLicenseExpressionDetail (LicenseExpressionDetail_LicenseIdentifier x) (LicenseExpressionDetail_BOMRef x) (LicenseExpressionDetail_Text x) v.
Definition over_LicenseExpressionDetail_LicenseIdentifier (f : string -> string) (x : LicenseExpressionDetail) : LicenseExpressionDetail := set_LicenseExpressionDetail_LicenseIdentifier (f (LicenseExpressionDetail_LicenseIdentifier x)) x.
Definition over_LicenseExpressionDetail_BOMRef (f : string -> string) (x : LicenseExpressionDetail) : LicenseExpressionDetail := set_LicenseExpressionDetail_BOMRef (f (LicenseExpressionDetail_BOMRef x)) x.
Definition over_LicenseExpressionDetail_Text (f : ptr (AttachedText) -> ptr (AttachedText)) (x : LicenseExpressionDetail) : LicenseExpressionDetail := set_LicenseExpressionDetail_Text (f (LicenseExpressionDetail_Text x)) x.
Definition over_LicenseExpressionDetail_URL (f : string -> string) (x : LicenseExpressionDetail) : LicenseExpressionDetail := set_LicenseExpressionDetail_URL (f (LicenseExpressionDetail_URL x)) x.
Definition zero_LicenseExpressionDetail : LicenseExpressionDetail := mkLicenseExpressionDetail ("") ("") (None) ("").

(** /repo/cyclonedx.go:956-964 *)
Record LicenseChoice := mkLicenseChoice {
  LicenseChoice_License : ptr (License);
  LicenseChoice_Expression : string;
  LicenseChoice_ExpressionDetails : ptr (slice (LicenseExpressionDetail));
  LicenseChoice_Acknowledgement : ptr (LicenseAcknowledgement);
  LicenseChoice_BOMRef : string;
  LicenseChoice_Licensing : ptr (Licensing);
  LicenseChoice_Properties : ptr (slice (Property))
}.
Definition set_LicenseChoice_License (v : ptr (License)) (x : LicenseChoice) : LicenseChoice :=
  mkLicenseChoice v (LicenseChoice_Expression x) (LicenseChoice_ExpressionDetails x) (LicenseChoice_Acknowledgement x) (LicenseChoice_BOMRef x) (LicenseChoice_Licensing x) (LicenseChoice_Properties x).
Definition set_LicenseChoice_Expression (v : string) (x : LicenseChoice) : LicenseChoice :=
  mkLicenseChoice (LicenseChoice_License x) v (LicenseChoice_ExpressionDetails x) (LicenseChoice_Acknowledgement x) (LicenseChoice_BOMRef x) (LicenseChoice_Licensing x) (LicenseChoice_Properties x).
Definition set_LicenseChoice_ExpressionDetails (v : ptr (slice (LicenseExpressionDetail))) (x : LicenseChoice) : LicenseChoice :=
  mkLicenseChoice (LicenseChoice_License x) (LicenseChoice_Expression x) v (LicenseChoice_Acknowledgement x) (LicenseChoice_BOMRef x) (LicenseChoice_Licensing x) (LicenseChoice_Properties x).
Definition set_LicenseChoice_Acknowledgement (v : ptr (LicenseAcknowledgement)) (x : LicenseChoice) : LicenseChoice :=
  mkLicenseChoice (LicenseChoice_License x) (LicenseChoice_Expression x) (LicenseChoice_ExpressionDetails x) v (LicenseChoice_BOMRef x) (LicenseChoice_Licensing x) (LicenseChoice_Properties x).
Definition set_LicenseChoice_BOMRef (v : string) (x : LicenseChoice) : LicenseChoice :=
  mkLicenseChoice (LicenseChoice_License x) (LicenseChoice_Expression x) (LicenseChoice_ExpressionDetails x) (LicenseChoice_Acknowledgement x) v (LicenseChoice_Licensing x) (LicenseChoice_Properties x).
Definition set_LicenseChoice_Licensing (v : ptr (Licensing)) (x : LicenseChoice) : LicenseChoice :=
  mkLicenseChoice (LicenseChoice_License x) (LicenseChoice_Expression x) (LicenseChoice_ExpressionDetails x) (LicenseChoice_Acknowledgement x) (LicenseChoice_BOMRef x) v (LicenseChoice_Properties x).
Definition set_LicenseChoice_Properties (v : ptr (slice (Property))) (x : LicenseChoice) : LicenseChoice :=
  mkLicenseChoice (LicenseChoice_License x) (LicenseChoice_Expression x) (LicenseChoice_ExpressionDetails x) (LicenseChoice_Acknowledgement x) (LicenseChoice_BOMRef x) (LicenseChoice_Licensing x) v.
Definition over_LicenseChoice_License (f : ptr (License) -> ptr (License)) (x : LicenseChoice) : LicenseChoice := set_LicenseChoice_License (f (LicenseChoice_License x)) x.
Definition over_LicenseChoice_Expression (f : string -> string) (x : LicenseChoice) : LicenseChoice := set_LicenseChoice_Expression (f (LicenseChoice_Expression x)) x.
Definition over_LicenseChoice_ExpressionDetails (f : ptr (slice (LicenseExpressionDetail)) -> ptr (slice (LicenseExpressionDetail))) (x : LicenseChoice) : LicenseChoice := set_LicenseChoice_ExpressionDetails (f (LicenseChoice_ExpressionDetails x)) x.
Definition over_LicenseChoice_Acknowledgement (f : ptr (LicenseAcknowledgement) -> ptr (LicenseAcknowledgement)) (x : LicenseChoice) : LicenseChoice := set_LicenseChoice_Acknowledgement (f (LicenseChoice_Acknowledgement x)) x.
Definition over_LicenseChoice_BOMRef (f : string -> string) (x : LicenseChoice) : LicenseChoice := set_LicenseChoice_BOMRef (f (LicenseChoice_BOMRef x)) x.
Definition over_LicenseChoice_Licensing (f : ptr (Licensing) -> ptr (Licensing)) (x : LicenseChoice) : LicenseChoice := set_LicenseChoice_Licensing (f (LicenseChoice_Licensing x)) x.
Definition over_LicenseChoice_Properties (f : ptr (slice (Property)) -> ptr (slice (Property))) (x : LicenseChoice) : LicenseChoice := set_LicenseChoice_Properties (f (LicenseChoice_Properties x)) x.
Definition zero_LicenseChoice : LicenseChoice := mkLicenseChoice (None) ("") (None) (None) ("") (None) (None).

(** /repo/cyclonedx.go:954 *)
Definition Licenses := slice (LicenseChoice).
(** /repo/cyclonedx.go:1012 *)
Definition LifecyclePhase := string.
(** /repo/cyclonedx.go:1026 *)
Definition MediaType := Z.
(** /repo/cyclonedx.go:1104 *)
Definition MLModelCO2Unit := string.
(** /repo/cyclonedx.go:1117 *)
Definition MLModelEnergyConsumptionActivity := string.
(** /repo/cyclonedx.go:1145 *)
Definition MLModelEnergySource := string.
(** /repo/cyclonedx.go:1161 *)
Definition MLModelEnergyUnit := string.
(** /repo/cyclonedx.go:1179 *)
Definition MLModelParametersApproachType := string.
(** /repo/cyclonedx.go:1243 *)
Definition PatchType := string.
(** /repo/cyclonedx.go:1299 *)
Definition RelatedCryptoMaterialType := string.
(** /repo/cyclonedx.go:1342 *)
Definition Scope := string.
(** /repo/cyclonedx.go:1350 *)
Definition ScoringMethod := string.
(** /repo/cyclonedx.go:1384 *)
Definition Severity := string.
(** /repo/cyclonedx.go:1403 *)
Definition SpecVersion := Z.
(** /repo/cyclonedx.go:1503 *)
Definition TaskOutputType := string.
(** /repo/cyclonedx.go:1542 *)
Definition TaskTriggerType := string.
(** /repo/cyclonedx.go:1551 *)
Definition TaskType := string.
(** /repo/cyclonedx.go:1583 *)
Definition TaskWorkspaceAccessMode := string.
(** /repo/cyclonedx.go:1627 *)
Definition VolumeMode := string.
(** /repo/cyclonedx.go:1681 *)
Definition VulnerabilityStatus := string.
(** /repo/cyclonedx.go:1724 *)
Definition PatentLegalStatus := string.
(** /repo/cyclonedx.go:1788 *)
Definition PatentAssertionType := string.
(** /repo/cyclonedx.go:1814 *)
Definition TLPClassification := string.
(** /repo/cyclonedx.go:1893 *)
Definition CertificateStateType := string.
(** /repo/cyclonedx.go:1925 *)
Definition CertificateExtensionName := string.
(** /repo/cyclonedx.go:35-38 *)
Record Advisory := mkAdvisory {
  Advisory_Title : string;
  Advisory_URL : string
}.
Definition set_Advisory_Title (v : string) (x : Advisory) : Advisory :=
  mkAdvisory v (Advisory_URL x).
Definition set_Advisory_URL (v : string) (x : Advisory) : Advisory :=
  mkAdvisory (Advisory_Title x) v.
Definition over_Advisory_Title (f : string -> string) (x : Advisory) : Advisory := set_Advisory_Title (f (Advisory_Title x)) x.
Definition over_Advisory_URL (f : string -> string) (x : Advisory) : Advisory := set_Advisory_URL (f (Advisory_URL x)) x.
Definition zero_Advisory : Advisory := mkAdvisory ("") ("").

(** /repo/cyclonedx.go:40-44 *)
Record AffectedVersions := mkAffectedVersions {
  AffectedVersions_Version : string;
  AffectedVersions_Range : string;
  AffectedVersions_Status : VulnerabilityStatus
}.
Definition set_AffectedVersions_Version (v : string) (x : AffectedVersions) : AffectedVersions :=
  mkAffectedVersions v (AffectedVersions_Range x) (AffectedVersions_Status x).
Definition set_AffectedVersions_Range (v : string) (x : AffectedVersions) : AffectedVersions :=
  mkAffectedVersions (AffectedVersions_Version x) v (AffectedVersions_Status x).
Definition set_AffectedVersions_Status (v : VulnerabilityStatus) (x : AffectedVersions) : AffectedVersions :=
  mkAffectedVersions (AffectedVersions_Version x) (AffectedVersions_Range x) v.
Definition over_AffectedVersions_Version (f : string -> string) (x : AffectedVersions) : AffectedVersions := set_AffectedVersions_Version (f (AffectedVersions_Version x)) x.
Definition over_AffectedVersions_Range (f : string -> string) (x : AffectedVersions) : AffectedVersions := set_AffectedVersions_Range (f (AffectedVersions_Range x)) x.
Definition over_AffectedVersions_Status (f : VulnerabilityStatus -> VulnerabilityStatus) (x : AffectedVersions) : AffectedVersions := set_AffectedVersions_Status (f (AffectedVersions_Status x)) x.
Definition zero_AffectedVersions : AffectedVersions := mkAffectedVersions ("") ("") ("").

(** /repo/cyclonedx.go:46-49 *)
Record Affects := mkAffects {
  Affects_Ref : string;
  Affects_Range : ptr (slice (AffectedVersions))
}.
Definition set_Affects_Ref (v : string) (x : Affects) : Affects :=
  mkAffects v (Affects_Range x).
Definition set_Affects_Range (v : ptr (slice (AffectedVersions))) (x : Affects) : Affects :=
  mkAffects (Affects_Ref x) v.
Definition over_Affects_Ref (f : string -> string) (x : Affects) : Affects := set_Affects_Ref (f (Affects_Ref x)) x.
Definition over_Affects_Range (f : ptr (slice (AffectedVersions)) -> ptr (slice (AffectedVersions))) (x : Affects) : Affects := set_Affects_Range (f (Affects_Range x)) x.
Definition zero_Affects : Affects := mkAffects ("") (None).

(** /repo/cyclonedx.go:808-811 *)
Record Hash := mkHash {
  Hash_Algorithm : HashAlgorithm;
  Hash_Value : string
}.
Definition set_Hash_Algorithm (v : HashAlgorithm) (x : Hash) : Hash :=
  mkHash v (Hash_Value x).
Definition set_Hash_Value (v : string) (x : Hash) : Hash :=
  mkHash (Hash_Algorithm x) v.
Definition over_Hash_Algorithm (f : HashAlgorithm -> HashAlgorithm) (x : Hash) : Hash := set_Hash_Algorithm (f (Hash_Algorithm x)) x.
Definition over_Hash_Value (f : string -> string) (x : Hash) : Hash := set_Hash_Value (f (Hash_Value x)) x.
Definition zero_Hash : Hash := mkHash ("") ("").

(** /repo/cyclonedx.go:1449-1457 *)
Record SWID := mkSWID {
  SWID_Text : ptr (AttachedText);
  SWID_URL : string;
  SWID_TagID : string;
  SWID_Name : string;
  SWID_Version : string;
  SWID_TagVersion : ptr (Z);
  SWID_Patch : ptr (bool)
}.
Definition set_SWID_Text (v : ptr (AttachedText)) (x : SWID) : SWID :=
  mkSWID v (SWID_URL x) (SWID_TagID x) (SWID_Name x) (SWID_Version x) (SWID_TagVersion x) (SWID_Patch x).
Definition set_SWID_URL (v : string) (x : SWID) : SWID :=
  mkSWID (SWID_Text x) v (SWID_TagID x) (SWID_Name x) (SWID_Version x) (SWID_TagVersion x) (SWID_Patch x).
Definition set_SWID_TagID (v : string) (x : SWID) : SWID :=
  mkSWID (SWID_Text x) (SWID_URL x) v (SWID_Name x) (SWID_Version x) (SWID_TagVersion x) (SWID_Patch x).
Definition set_SWID_Name (v : string) (x : SWID) : SWID :=
  mkSWID (SWID_Text x) (SWID_URL x) (SWID_TagID x) v (SWID_Version x) (SWID_TagVersion x) (SWID_Patch x).
Definition set_SWID_Version (v : string) (x : SWID) : SWID :=
  mkSWID (SWID_Text x) (SWID_URL x) (SWID_TagID x) (SWID_Name x) v (SWID_TagVersion x) (SWID_Patch x).
Definition set_SWID_TagVersion (v : ptr (Z)) (x : SWID) : SWID :=
  mkSWID (SWID_Text x) (SWID_URL x) (SWID_TagID x) (SWID_Name x) (SWID_Version x) v (SWID_Patch x).
Definition set_SWID_Patch (v : ptr (bool)) (x : SWID) : SWID :=
  mkSWID (SWID_Text x) (SWID_URL x) (SWID_TagID x) (SWID_Name x) (SWID_Version x) (SWID_TagVersion x) v.
Definition over_SWID_Text (f : ptr (AttachedText) -> ptr (AttachedText)) (x : SWID) : SWID := set_SWID_Text (f (SWID_Text x)) x.
Definition over_SWID_URL (f : string -> string) (x : SWID) : SWID := set_SWID_URL (f (SWID_URL x)) x.
Definition over_SWID_TagID (f : string -> string) (x : SWID) : SWID := set_SWID_TagID (f (SWID_TagID x)) x.
Definition over_SWID_Name (f : string -> string) (x : SWID) : SWID := set_SWID_Name (f (SWID_Name x)) x.
Definition over_SWID_Version (f : string -> string) (x : SWID) : SWID := set_SWID_Version (f (SWID_Version x)) x.
Definition over_SWID_TagVersion (f : ptr (Z) -> ptr (Z)) (x : SWID) : SWID := set_SWID_TagVersion (f (SWID_TagVersion x)) x.
Definition over_SWID_Patch (f : ptr (bool) -> ptr (bool)) (x : SWID) : SWID := set_SWID_Patch (f (SWID_Patch x)) x.
Definition zero_SWID : SWID := mkSWID (None) ("") ("") ("") ("") (None) (None).

(** /repo/cyclonedx.go:832-836 *)
Record IdentifiableAction := mkIdentifiableAction {
  IdentifiableAction_Timestamp : string;
  IdentifiableAction_Name : string;
  IdentifiableAction_Email : string
}.
Definition set_IdentifiableAction_Timestamp (v : string) (x : IdentifiableAction) : IdentifiableAction :=
  mkIdentifiableAction v (IdentifiableAction_Name x) (IdentifiableAction_Email x).
Definition set_IdentifiableAction_Name (v : string) (x : IdentifiableAction) : IdentifiableAction :=
  mkIdentifiableAction (IdentifiableAction_Timestamp x) v (IdentifiableAction_Email x).
Definition set_IdentifiableAction_Email (v : string) (x : IdentifiableAction) : IdentifiableAction :=
  mkIdentifiableAction (IdentifiableAction_Timestamp x) (IdentifiableAction_Name x) v.
Definition over_IdentifiableAction_Timestamp (f : string -> string) (x : IdentifiableAction) : IdentifiableAction := set_IdentifiableAction_Timestamp (f (IdentifiableAction_Timestamp x)) x.
Definition over_IdentifiableAction_Name (f : string -> string) (x : IdentifiableAction) : IdentifiableAction := set_IdentifiableAction_Name (f (IdentifiableAction_Name x)) x.
Definition over_IdentifiableAction_Email (f : string -> string) (x : IdentifiableAction) : IdentifiableAction := set_IdentifiableAction_Email (f (IdentifiableAction_Email x)) x.
Definition zero_IdentifiableAction : IdentifiableAction := mkIdentifiableAction ("") ("") ("").

(** /repo/cyclonedx.go:231-237 *)
Record Commit := mkCommit {
  Commit_UID : string;
  Commit_URL : string;
  Commit_Author : ptr (IdentifiableAction);
  Commit_Committer : ptr (IdentifiableAction);
  Commit_Message : string
}.
Definition set_Commit_UID (v : string) (x : Commit) : Commit :=
  mkCommit v (Commit_URL x) (Commit_Author x) (Commit_Committer x) (Commit_Message x).
Definition set_Commit_URL (v : string) (x : Commit) : Commit :=
  mkCommit (Commit_UID x) v (Commit_Author x) (Commit_Committer x) (Commit_Message x).
Definition set_Commit_Author (v : ptr (IdentifiableAction)) (x : Commit) : Commit :=
  mkCommit (Commit_UID x) (Commit_URL x) v (Commit_Committer x) (Commit_Message x).
Definition set_Commit_Committer (v : ptr (IdentifiableAction)) (x : Commit) : Commit :=
  mkCommit (Commit_UID x) (Commit_URL x) (Commit_Author x) v (Commit_Message x).
Definition set_Commit_Message (v : string) (x : Commit) : Commit :=
  mkCommit (Commit_UID x) (Commit_URL x) (Commit_Author x) (Commit_Committer x) v.
Definition over_Commit_UID (f : string -> string) (x : Commit) : Commit := set_Commit_UID (f (Commit_UID x)) x.
Definition over_Commit_URL (f : string -> string) (x : Commit) : Commit := set_Commit_URL (f (Commit_URL x)) x.
Definition over_Commit_Author (f : ptr (IdentifiableAction) -> ptr (IdentifiableAction)) (x : Commit) : Commit := set_Commit_Author (f (Commit_Author x)) x.
Definition over_Commit_Committer (f : ptr (IdentifiableAction) -> ptr (IdentifiableAction)) (x : Commit) : Commit := set_Commit_Committer (f (Commit_Committer x)) x.
Definition over_Commit_Message (f : string -> string) (x : Commit) : Commit := set_Commit_Message (f (Commit_Message x)) x.
Definition zero_Commit : Commit := mkCommit ("") ("") (None) (None) ("").

(** /repo/cyclonedx.go:650-653 *)
Record Diff := mkDiff {
  Diff_Text : ptr (AttachedText);
  Diff_URL : string
}.
Definition set_Diff_Text (v : ptr (AttachedText)) (x : Diff) : Diff :=
  mkDiff v (Diff_URL x).
Definition set_Diff_URL (v : string) (x : Diff) : Diff :=
  mkDiff (Diff_Text x) v.
Definition over_Diff_Text (f : ptr (AttachedText) -> ptr (AttachedText)) (x : Diff) : Diff := set_Diff_Text (f (Diff_Text x)) x.
Definition over_Diff_URL (f : string -> string) (x : Diff) : Diff := set_Diff_URL (f (Diff_URL x)) x.
Definition zero_Diff : Diff := mkDiff (None) ("").

(** /repo/cyclonedx.go:1398-1401 *)
Record Source := mkSource {
  Source_Name : string;
  Source_URL : string
}.
Definition set_Source_Name (v : string) (x : Source) : Source :=
  mkSource v (Source_URL x).
Definition set_Source_URL (v : string) (x : Source) : Source :=
  mkSource (Source_Name x) v.
Definition over_Source_Name (f : string -> string) (x : Source) : Source := set_Source_Name (f (Source_Name x)) x.
Definition over_Source_URL (f : string -> string) (x : Source) : Source := set_Source_URL (f (Source_URL x)) x.
Definition zero_Source : Source := mkSource ("") ("").

(** /repo/cyclonedx.go:892-899 *)
Record Issue := mkIssue {
  Issue_ID : string;
  Issue_Name : string;
  Issue_Description : string;
  Issue_Source : ptr (Source);
  Issue_References : ptr (slice (string));
  Issue_Type : IssueType
}.
Definition set_Issue_ID (v : string) (x : Issue) : Issue :=
  mkIssue v (Issue_Name x) (Issue_Description x) (Issue_Source x) (Issue_References x) (Issue_Type x).
Definition set_Issue_Name (v : string) (x : Issue) : Issue :=
  mkIssue (Issue_ID x) v (Issue_Description x) (Issue_Source x) (Issue_References x) (Issue_Type x).
Definition set_Issue_Description (v : string) (x : Issue) : Issue :=
  mkIssue (Issue_ID x) (Issue_Name x) v (Issue_Source x) (Issue_References x) (Issue_Type x).
Definition set_Issue_Source (v : ptr (Source)) (x : Issue) : Issue :=
  mkIssue (Issue_ID x) (Issue_Name x) (Issue_Description x) v (Issue_References x) (Issue_Type x).
Definition set_Issue_References (v : ptr (slice (string))) (x : Issue) : Issue :=
  mkIssue (Issue_ID x) (Issue_Name x) (Issue_Description x) (Issue_Source x) v (Issue_Type x).
Definition set_Issue_Type (v : IssueType) (x : Issue) : Issue :=
  mkIssue (Issue_ID x) (Issue_Name x) (Issue_Description x) (Issue_Source x) (Issue_References x) v.
Definition over_Issue_ID (f : string -> string) (x : Issue) : Issue := set_Issue_ID (f (Issue_ID x)) x.
Definition over_Issue_Name (f : string -> string) (x : Issue) : Issue := set_Issue_Name (f (Issue_Name x)) x.
Definition over_Issue_Description (f : string -> string) (x : Issue) : Issue := set_Issue_Description (f (Issue_Description x)) x.
Definition over_Issue_Source (f : ptr (Source) -> ptr (Source)) (x : Issue) : Issue := set_Issue_Source (f (Issue_Source x)) x.
Definition over_Issue_References (f : ptr (slice (string)) -> ptr (slice (string))) (x : Issue) : Issue := set_Issue_References (f (Issue_References x)) x.
Definition over_Issue_Type (f : IssueType -> IssueType) (x : Issue) : Issue := set_Issue_Type (f (Issue_Type x)) x.
Definition zero_Issue : Issue := mkIssue ("") ("") ("") (None) (None) ("").

(** /repo/cyclonedx.go:1237-1241 *)
Record Patch := mkPatch {
  Patch_Diff : ptr (Diff);
  Patch_Resolves : ptr (slice (Issue));
  Patch_Type : PatchType
}.
Definition set_Patch_Diff (v : ptr (Diff)) (x : Patch) : Patch :=
  mkPatch v (Patch_Resolves x) (Patch_Type x).
Definition set_Patch_Resolves (v : ptr (slice (Issue))) (x : Patch) : Patch :=
  mkPatch (Patch_Diff x) v (Patch_Type x).
Definition set_Patch_Type (v : PatchType) (x : Patch) : Patch :=
  mkPatch (Patch_Diff x) (Patch_Resolves x) v.
Definition over_Patch_Diff (f : ptr (Diff) -> ptr (Diff)) (x : Patch) : Patch := set_Patch_Diff (f (Patch_Diff x)) x.
Definition over_Patch_Resolves (f : ptr (slice (Issue)) -> ptr (slice (Issue))) (x : Patch) : Patch := set_Patch_Resolves (f (Patch_Resolves x)) x.
Definition over_Patch_Type (f : PatchType -> PatchType) (x : Patch) : Patch := set_Patch_Type (f (Patch_Type x)) x.
Definition zero_Patch : Patch := mkPatch (None) (None) ("").

(** /repo/cyclonedx.go:1252-1259; the recursion through Component is closed below *)
Record Pedigree_ (C : Type) := mkPedigree {
  Pedigree_Ancestors : ptr (slice (C));
  Pedigree_Descendants : ptr (slice (C));
  Pedigree_Variants : ptr (slice (C));
  Pedigree_Commits : ptr (slice (Commit));
  Pedigree_Patches : ptr (slice (Patch));
  Pedigree_Notes : string
}.
Arguments mkPedigree {C}.
Arguments Pedigree_Ancestors {C}.
Arguments Pedigree_Descendants {C}.
Arguments Pedigree_Variants {C}.
Arguments Pedigree_Commits {C}.
Arguments Pedigree_Patches {C}.
Arguments Pedigree_Notes {C}.
Definition set_Pedigree_Ancestors {C : Type} (v : ptr (slice (C))) (x : Pedigree_ C) : Pedigree_ C :=
  mkPedigree v (Pedigree_Descendants x) (Pedigree_Variants x) (Pedigree_Commits x) (Pedigree_Patches x) (Pedigree_Notes x).
Definition set_Pedigree_Descendants {C : Type} (v : ptr (slice (C))) (x : Pedigree_ C) : Pedigree_ C :=
  mkPedigree (Pedigree_Ancestors x) v (Pedigree_Variants x) (Pedigree_Commits x) (Pedigree_Patches x) (Pedigree_Notes x).
Definition set_Pedigree_Variants {C : Type} (v : ptr (slice (C))) (x : Pedigree_ C) : Pedigree_ C :=
  mkPedigree (Pedigree_Ancestors x) (Pedigree_Descendants x) v (Pedigree_Commits x) (Pedigree_Patches x) (Pedigree_Notes x).
Definition set_Pedigree_Commits {C : Type} (v : ptr (slice (Commit))) (x : Pedigree_ C) : Pedigree_ C :=
  mkPedigree (Pedigree_Ancestors x) (Pedigree_Descendants x) (Pedigree_Variants x) v (Pedigree_Patches x) (Pedigree_Notes x).
Definition set_Pedigree_Patches {C : Type} (v : ptr (slice (Patch))) (x : Pedigree_ C) : Pedigree_ C :=
  mkPedigree (Pedigree_Ancestors x) (Pedigree_Descendants x) (Pedigree_Variants x) (Pedigree_Commits x) v (Pedigree_Notes x).
Definition set_Pedigree_Notes {C : Type} (v : string) (x : Pedigree_ C) : Pedigree_ C :=
  mkPedigree (Pedigree_Ancestors x) (Pedigree_Descendants x) (Pedigree_Variants x) (Pedigree_Commits x) (Pedigree_Patches x) v.
Definition over_Pedigree_Ancestors {C : Type} (f : ptr (slice (C)) -> ptr (slice (C))) (x : Pedigree_ C) : Pedigree_ C := set_Pedigree_Ancestors (f (Pedigree_Ancestors x)) x.
Definition over_Pedigree_Descendants {C : Type} (f : ptr (slice (C)) -> ptr (slice (C))) (x : Pedigree_ C) : Pedigree_ C := set_Pedigree_Descendants (f (Pedigree_Descendants x)) x.
Definition over_Pedigree_Variants {C : Type} (f : ptr (slice (C)) -> ptr (slice (C))) (x : Pedigree_ C) : Pedigree_ C := set_Pedigree_Variants (f (Pedigree_Variants x)) x.
Definition over_Pedigree_Commits {C : Type} (f : ptr (slice (Commit)) -> ptr (slice (Commit))) (x : Pedigree_ C) : Pedigree_ C := set_Pedigree_Commits (f (Pedigree_Commits x)) x.
Definition over_Pedigree_Patches {C : Type} (f : ptr (slice (Patch)) -> ptr (slice (Patch))) (x : Pedigree_ C) : Pedigree_ C := set_Pedigree_Patches (f (Pedigree_Patches x)) x.
Definition over_Pedigree_Notes {C : Type} (f : string -> string) (x : Pedigree_ C) : Pedigree_ C := set_Pedigree_Notes (f (Pedigree_Notes x)) x.
Definition zero_Pedigree {C : Type} : Pedigree_ C := mkPedigree (None) (None) (None) (None) (None) ("").

(** /repo/cyclonedx.go:740-746 *)
Record ExternalReference := mkExternalReference {
  ExternalReference_URL : string;
  ExternalReference_Comment : string;
  ExternalReference_Hashes : ptr (slice (Hash));
  ExternalReference_Type : ExternalReferenceType;
  ExternalReference_Properties : ptr (slice (Property))
}.
Definition set_ExternalReference_URL (v : string) (x : ExternalReference) : ExternalReference :=
  mkExternalReference v (ExternalReference_Comment x) (ExternalReference_Hashes x) (ExternalReference_Type x) (ExternalReference_Properties x).
Definition set_ExternalReference_Comment (v : string) (x : ExternalReference) : ExternalReference :=
  mkExternalReference (ExternalReference_URL x) v (ExternalReference_Hashes x) (ExternalReference_Type x) (ExternalReference_Properties x).
Definition set_ExternalReference_Hashes (v : ptr (slice (Hash))) (x : ExternalReference) : ExternalReference :=
  mkExternalReference (ExternalReference_URL x) (ExternalReference_Comment x) v (ExternalReference_Type x) (ExternalReference_Properties x).
Definition set_ExternalReference_Type (v : ExternalReferenceType) (x : ExternalReference) : ExternalReference :=
  mkExternalReference (ExternalReference_URL x) (ExternalReference_Comment x) (ExternalReference_Hashes x) v (ExternalReference_Properties x).
Definition set_ExternalReference_Properties (v : ptr (slice (Property))) (x : ExternalReference) : ExternalReference :=
  mkExternalReference (ExternalReference_URL x) (ExternalReference_Comment x) (ExternalReference_Hashes x) (ExternalReference_Type x) v.
Definition over_ExternalReference_URL (f : string -> string) (x : ExternalReference) : ExternalReference := set_ExternalReference_URL (f (ExternalReference_URL x)) x.
Definition over_ExternalReference_Comment (f : string -> string) (x : ExternalReference) : ExternalReference := set_ExternalReference_Comment (f (ExternalReference_Comment x)) x.
Definition over_ExternalReference_Hashes (f : ptr (slice (Hash)) -> ptr (slice (Hash))) (x : ExternalReference) : ExternalReference := set_ExternalReference_Hashes (f (ExternalReference_Hashes x)) x.
Definition over_ExternalReference_Type (f : ExternalReferenceType -> ExternalReferenceType) (x : ExternalReference) : ExternalReference := set_ExternalReference_Type (f (ExternalReference_Type x)) x.
Definition over_ExternalReference_Properties (f : ptr (slice (Property)) -> ptr (slice (Property))) (x : ExternalReference) : ExternalReference := set_ExternalReference_Properties (f (ExternalReference_Properties x)) x.
Definition zero_ExternalReference : ExternalReference := mkExternalReference ("") ("") (None) ("") (None).

(** /repo/cyclonedx.go:710-714 *)
Record EvidenceIdentityMethod := mkEvidenceIdentityMethod {
  EvidenceIdentityMethod_Technique : EvidenceIdentityTechnique;
  EvidenceIdentityMethod_Confidence : ptr (gofloat);
  EvidenceIdentityMethod_Value : string
}.
Definition set_EvidenceIdentityMethod_Technique (v : EvidenceIdentityTechnique) (x : EvidenceIdentityMethod) : EvidenceIdentityMethod :=
  mkEvidenceIdentityMethod v (EvidenceIdentityMethod_Confidence x) (EvidenceIdentityMethod_Value x).
Definition set_EvidenceIdentityMethod_Confidence (v : ptr (gofloat)) (x : EvidenceIdentityMethod) : EvidenceIdentityMethod :=
  mkEvidenceIdentityMethod (EvidenceIdentityMethod_Technique x) v (EvidenceIdentityMethod_Value x).
Definition set_EvidenceIdentityMethod_Value (v : string) (x : EvidenceIdentityMethod) : EvidenceIdentityMethod :=
  mkEvidenceIdentityMethod (EvidenceIdentityMethod_Technique x) (EvidenceIdentityMethod_Confidence x) v.
Definition over_EvidenceIdentityMethod_Technique (f : EvidenceIdentityTechnique -> EvidenceIdentityTechnique) (x : EvidenceIdentityMethod) : EvidenceIdentityMethod := set_EvidenceIdentityMethod_Technique (f (EvidenceIdentityMethod_Technique x)) x.
Definition over_EvidenceIdentityMethod_Confidence (f : ptr (gofloat) -> ptr (gofloat)) (x : EvidenceIdentityMethod) : EvidenceIdentityMethod := set_EvidenceIdentityMethod_Confidence (f (EvidenceIdentityMethod_Confidence x)) x.
Definition over_EvidenceIdentityMethod_Value (f : string -> string) (x : EvidenceIdentityMethod) : EvidenceIdentityMethod := set_EvidenceIdentityMethod_Value (f (EvidenceIdentityMethod_Value x)) x.
Definition zero_EvidenceIdentityMethod : EvidenceIdentityMethod := mkEvidenceIdentityMethod ("") (None) ("").

(** /repo/cyclonedx.go:688-694 *)
Record EvidenceIdentity := mkEvidenceIdentity {
  EvidenceIdentity_Field : EvidenceIdentityFieldType;
  EvidenceIdentity_Confidence : ptr (gofloat);
  EvidenceIdentity_ConcludedValue : string;
  EvidenceIdentity_Methods : ptr (slice (EvidenceIdentityMethod));
  EvidenceIdentity_Tools : ptr (slice (BOMReference))
}.
Definition set_EvidenceIdentity_Field (v : EvidenceIdentityFieldType) (x : EvidenceIdentity) : EvidenceIdentity :=
  mkEvidenceIdentity v (EvidenceIdentity_Confidence x) (EvidenceIdentity_ConcludedValue x) (EvidenceIdentity_Methods x) (EvidenceIdentity_Tools x).
Definition set_EvidenceIdentity_Confidence (v : ptr (gofloat)) (x : EvidenceIdentity) : EvidenceIdentity :=
  mkEvidenceIdentity (EvidenceIdentity_Field x) v (EvidenceIdentity_ConcludedValue x) (EvidenceIdentity_Methods x) (EvidenceIdentity_Tools x).
Definition set_EvidenceIdentity_ConcludedValue (v : string) (x : EvidenceIdentity) : EvidenceIdentity :=
  mkEvidenceIdentity (EvidenceIdentity_Field x) (EvidenceIdentity_Confidence x) v (EvidenceIdentity_Methods x) (EvidenceIdentity_Tools x).
Definition set_EvidenceIdentity_Methods (v : ptr (slice (EvidenceIdentityMethod))) (x : EvidenceIdentity) : EvidenceIdentity :=
  mkEvidenceIdentity (EvidenceIdentity_Field x) (EvidenceIdentity_Confidence x) (EvidenceIdentity_ConcludedValue x) v (EvidenceIdentity_Tools x).
Definition set_EvidenceIdentity_Tools (v : ptr (slice (BOMReference))) (x : EvidenceIdentity) : EvidenceIdentity :=
  mkEvidenceIdentity (EvidenceIdentity_Field x) (EvidenceIdentity_Confidence x) (EvidenceIdentity_ConcludedValue x) (EvidenceIdentity_Methods x) v.
Definition over_EvidenceIdentity_Field (f : EvidenceIdentityFieldType -> EvidenceIdentityFieldType) (x : EvidenceIdentity) : EvidenceIdentity := set_EvidenceIdentity_Field (f (EvidenceIdentity_Field x)) x.
Definition over_EvidenceIdentity_Confidence (f : ptr (gofloat) -> ptr (gofloat)) (x : EvidenceIdentity) : EvidenceIdentity := set_EvidenceIdentity_Confidence (f (EvidenceIdentity_Confidence x)) x.
Definition over_EvidenceIdentity_ConcludedValue (f : string -> string) (x : EvidenceIdentity) : EvidenceIdentity := set_EvidenceIdentity_ConcludedValue (f (EvidenceIdentity_ConcludedValue x)) x.
Definition over_EvidenceIdentity_Methods (f : ptr (slice (EvidenceIdentityMethod)) -> ptr (slice (EvidenceIdentityMethod))) (x : EvidenceIdentity) : EvidenceIdentity := set_EvidenceIdentity_Methods (f (EvidenceIdentity_Methods x)) x.
Definition over_EvidenceIdentity_Tools (f : ptr (slice (BOMReference)) -> ptr (slice (BOMReference))) (x : EvidenceIdentity) : EvidenceIdentity := set_EvidenceIdentity_Tools (f (EvidenceIdentity_Tools x)) x.
Definition zero_EvidenceIdentity : EvidenceIdentity := mkEvidenceIdentity ("") (None) ("") (None) (None).

(** /repo/cyclonedx.go:683-686 *)
Record EvidenceIdentityChoice := mkEvidenceIdentityChoice {
  EvidenceIdentityChoice_Identity : ptr (EvidenceIdentity);
  EvidenceIdentityChoice_Identities : ptr (slice (EvidenceIdentity))
}.
Definition set_EvidenceIdentityChoice_Identity (v : ptr (EvidenceIdentity)) (x : EvidenceIdentityChoice) : EvidenceIdentityChoice :=
  mkEvidenceIdentityChoice v (EvidenceIdentityChoice_Identities x).
Definition set_EvidenceIdentityChoice_Identities (v : ptr (slice (EvidenceIdentity))) (x : EvidenceIdentityChoice) : EvidenceIdentityChoice :=
  mkEvidenceIdentityChoice (EvidenceIdentityChoice_Identity x) v.
Definition over_EvidenceIdentityChoice_Identity (f : ptr (EvidenceIdentity) -> ptr (EvidenceIdentity)) (x : EvidenceIdentityChoice) : EvidenceIdentityChoice := set_EvidenceIdentityChoice_Identity (f (EvidenceIdentityChoice_Identity x)) x.
Definition over_EvidenceIdentityChoice_Identities (f : ptr (slice (EvidenceIdentity)) -> ptr (slice (EvidenceIdentity))) (x : EvidenceIdentityChoice) : EvidenceIdentityChoice := set_EvidenceIdentityChoice_Identities (f (EvidenceIdentityChoice_Identities x)) x.
Definition zero_EvidenceIdentityChoice : EvidenceIdentityChoice := mkEvidenceIdentityChoice (None) (None).

(** /repo/cyclonedx.go:731-738 *)
Record EvidenceOccurrence := mkEvidenceOccurrence {
  EvidenceOccurrence_BOMRef : string;
  EvidenceOccurrence_Location : string;
  EvidenceOccurrence_Line : ptr (Z);
  EvidenceOccurrence_Offset : ptr (Z);
  EvidenceOccurrence_Symbol : string;
  EvidenceOccurrence_AdditionalContext : string
}.
Definition set_EvidenceOccurrence_BOMRef (v : string) (x : EvidenceOccurrence) : EvidenceOccurrence :=
  mkEvidenceOccurrence v (EvidenceOccurrence_Location x) (EvidenceOccurrence_Line x) (EvidenceOccurrence_Offset x) (EvidenceOccurrence_Symbol x) (EvidenceOccurrence_AdditionalContext x).
Definition set_EvidenceOccurrence_Location (v : string) (x : EvidenceOccurrence) : EvidenceOccurrence :=
  mkEvidenceOccurrence (EvidenceOccurrence_BOMRef x) v (EvidenceOccurrence_Line x) (EvidenceOccurrence_Offset x) (EvidenceOccurrence_Symbol x) (EvidenceOccurrence_AdditionalContext x).
Definition set_EvidenceOccurrence_Line (v : ptr (Z)) (x : EvidenceOccurrence) : EvidenceOccurrence :=
  mkEvidenceOccurrence (EvidenceOccurrence_BOMRef x) (EvidenceOccurrence_Location x) v (EvidenceOccurrence_Offset x) (EvidenceOccurrence_Symbol x) (EvidenceOccurrence_AdditionalContext x).
Definition set_EvidenceOccurrence_Offset (v : ptr (Z)) (x : EvidenceOccurrence) : EvidenceOccurrence :=
  mkEvidenceOccurrence (EvidenceOccurrence_BOMRef x) (EvidenceOccurrence_Location x) (EvidenceOccurrence_Line x) v (EvidenceOccurrence_Symbol x) (EvidenceOccurrence_AdditionalContext x).
Definition set_EvidenceOccurrence_Symbol (v : string) (x : EvidenceOccurrence) : EvidenceOccurrence :=
  mkEvidenceOccurrence (EvidenceOccurrence_BOMRef x) (EvidenceOccurrence_Location x) (EvidenceOccurrence_Line x) (EvidenceOccurrence_Offset x) v (EvidenceOccurrence_AdditionalContext x).
Definition set_EvidenceOccurrence_AdditionalContext (v : string) (x : EvidenceOccurrence) : EvidenceOccurrence :=
  mkEvidenceOccurrence (EvidenceOccurrence_BOMRef x) (EvidenceOccurrence_Location x) (EvidenceOccurrence_Line x) (EvidenceOccurrence_Offset x) (EvidenceOccurrence_Symbol x) v.
Definition over_EvidenceOccurrence_BOMRef (f : string -> string) (x : EvidenceOccurrence) : EvidenceOccurrence := set_EvidenceOccurrence_BOMRef (f (EvidenceOccurrence_BOMRef x)) x.
Definition over_EvidenceOccurrence_Location (f : string -> string) (x : EvidenceOccurrence) : EvidenceOccurrence := set_EvidenceOccurrence_Location (f (EvidenceOccurrence_Location x)) x.
Definition over_EvidenceOccurrence_Line (f : ptr (Z) -> ptr (Z)) (x : EvidenceOccurrence) : EvidenceOccurrence := set_EvidenceOccurrence_Line (f (EvidenceOccurrence_Line x)) x.
Definition over_EvidenceOccurrence_Offset (f : ptr (Z) -> ptr (Z)) (x : EvidenceOccurrence) : EvidenceOccurrence := set_EvidenceOccurrence_Offset (f (EvidenceOccurrence_Offset x)) x.
Definition over_EvidenceOccurrence_Symbol (f : string -> string) (x : EvidenceOccurrence) : EvidenceOccurrence := set_EvidenceOccurrence_Symbol (f (EvidenceOccurrence_Symbol x)) x.
Definition over_EvidenceOccurrence_AdditionalContext (f : string -> string) (x : EvidenceOccurrence) : EvidenceOccurrence := set_EvidenceOccurrence_AdditionalContext (f (EvidenceOccurrence_AdditionalContext x)) x.
Definition zero_EvidenceOccurrence : EvidenceOccurrence := mkEvidenceOccurrence ("") ("") (None) (None) ("") ("").

(** /repo/cyclonedx.go:161-169 *)
Record CallstackFrame := mkCallstackFrame {
  CallstackFrame_Package : string;
  CallstackFrame_Module : string;
  CallstackFrame_Function : string;
  CallstackFrame_Parameters : ptr (slice (string));
  CallstackFrame_Line : ptr (Z);
  CallstackFrame_Column : ptr (Z);
  CallstackFrame_FullFilename : string
}.
Definition set_CallstackFrame_Package (v : string) (x : CallstackFrame) : CallstackFrame :=
  mkCallstackFrame v (CallstackFrame_Module x) (CallstackFrame_Function x) (CallstackFrame_Parameters x) (CallstackFrame_Line x) (CallstackFrame_Column x) (CallstackFrame_FullFilename x).
Definition set_CallstackFrame_Module (v : string) (x : CallstackFrame) : CallstackFrame :=
  mkCallstackFrame (CallstackFrame_Package x) v (CallstackFrame_Function x) (CallstackFrame_Parameters x) (CallstackFrame_Line x) (CallstackFrame_Column x) (CallstackFrame_FullFilename x).
Definition set_CallstackFrame_Function (v : string) (x : CallstackFrame) : CallstackFrame :=
  mkCallstackFrame (CallstackFrame_Package x) (CallstackFrame_Module x) v (CallstackFrame_Parameters x) (CallstackFrame_Line x) (CallstackFrame_Column x) (CallstackFrame_FullFilename x).
Definition set_CallstackFrame_Parameters (v : ptr (slice (string))) (x : CallstackFrame) : CallstackFrame :=
  mkCallstackFrame (CallstackFrame_Package x) (CallstackFrame_Module x) (CallstackFrame_Function x) v (CallstackFrame_Line x) (CallstackFrame_Column x) (CallstackFrame_FullFilename x).
Definition set_CallstackFrame_Line (v : ptr (Z)) (x : CallstackFrame) : CallstackFrame :=
  mkCallstackFrame (CallstackFrame_Package x) (CallstackFrame_Module x) (CallstackFrame_Function x) (CallstackFrame_Parameters x) v (CallstackFrame_Column x) (CallstackFrame_FullFilename x).
Definition set_CallstackFrame_Column (v : ptr (Z)) (x : CallstackFrame) : CallstackFrame :=
  mkCallstackFrame (CallstackFrame_Package x) (CallstackFrame_Module x) (CallstackFrame_Function x) (CallstackFrame_Parameters x) (CallstackFrame_Line x) v (CallstackFrame_FullFilename x).
Definition set_CallstackFrame_FullFilename (v : string) (x : CallstackFrame) : CallstackFrame :=
  mkCallstackFrame (CallstackFrame_Package x) (CallstackFrame_Module x) (CallstackFrame_Function x) (CallstackFrame_Parameters x) (CallstackFrame_Line x) (CallstackFrame_Column x) v.
Definition over_CallstackFrame_Package (f : string -> string) (x : CallstackFrame) : CallstackFrame := set_CallstackFrame_Package (f (CallstackFrame_Package x)) x.
Definition over_CallstackFrame_Module (f : string -> string) (x : CallstackFrame) : CallstackFrame := set_CallstackFrame_Module (f (CallstackFrame_Module x)) x.
Definition over_CallstackFrame_Function (f : string -> string) (x : CallstackFrame) : CallstackFrame := set_CallstackFrame_Function (f (CallstackFrame_Function x)) x.
Definition over_CallstackFrame_Parameters (f : ptr (slice (string)) -> ptr (slice (string))) (x : CallstackFrame) : CallstackFrame := set_CallstackFrame_Parameters (f (CallstackFrame_Parameters x)) x.
Definition over_CallstackFrame_Line (f : ptr (Z) -> ptr (Z)) (x : CallstackFrame) : CallstackFrame := set_CallstackFrame_Line (f (CallstackFrame_Line x)) x.
Definition over_CallstackFrame_Column (f : ptr (Z) -> ptr (Z)) (x : CallstackFrame) : CallstackFrame := set_CallstackFrame_Column (f (CallstackFrame_Column x)) x.
Definition over_CallstackFrame_FullFilename (f : string -> string) (x : CallstackFrame) : CallstackFrame := set_CallstackFrame_FullFilename (f (CallstackFrame_FullFilename x)) x.
Definition zero_CallstackFrame : CallstackFrame := mkCallstackFrame ("") ("") ("") (None) (None) (None) ("").

(** /repo/cyclonedx.go:157-159 *)
Record Callstack := mkCallstack {
  Callstack_Frames : ptr (slice (CallstackFrame))
}.
Definition set_Callstack_Frames (v : ptr (slice (CallstackFrame))) (x : Callstack) : Callstack :=
  mkCallstack v.
Definition over_Callstack_Frames (f : ptr (slice (CallstackFrame)) -> ptr (slice (CallstackFrame))) (x : Callstack) : Callstack := set_Callstack_Frames (f (Callstack_Frames x)) x.
Definition zero_Callstack : Callstack := mkCallstack (None).

(** /repo/cyclonedx.go:345-347 *)
Record Copyright := mkCopyright {
  Copyright_Text : string
}.
Definition set_Copyright_Text (v : string) (x : Copyright) : Copyright :=
  mkCopyright v.
Definition over_Copyright_Text (f : string -> string) (x : Copyright) : Copyright := set_Copyright_Text (f (Copyright_Text x)) x.
Definition zero_Copyright : Copyright := mkCopyright ("").

(** /repo/cyclonedx.go:672-678 *)
Record Evidence := mkEvidence {
  Evidence_Identity : ptr (EvidenceIdentityChoice);
  Evidence_Occurrences : ptr (slice (EvidenceOccurrence));
  Evidence_Callstack : ptr (Callstack);
  Evidence_Licenses : ptr (Licenses);
  Evidence_Copyright : ptr (slice (Copyright))
}.
Definition set_Evidence_Identity (v : ptr (EvidenceIdentityChoice)) (x : Evidence) : Evidence :=
  mkEvidence v (Evidence_Occurrences x) (Evidence_Callstack x) (Evidence_Licenses x) (Evidence_Copyright x).
Definition set_Evidence_Occurrences (v : ptr (slice (EvidenceOccurrence))) (x : Evidence) : Evidence :=
  mkEvidence (Evidence_Identity x) v (Evidence_Callstack x) (Evidence_Licenses x) (Evidence_Copyright x).
Definition set_Evidence_Callstack (v : ptr (Callstack)) (x : Evidence) : Evidence :=
  mkEvidence (Evidence_Identity x) (Evidence_Occurrences x) v (Evidence_Licenses x) (Evidence_Copyright x).
Definition set_Evidence_Licenses (v : ptr (Licenses)) (x : Evidence) : Evidence :=
  mkEvidence (Evidence_Identity x) (Evidence_Occurrences x) (Evidence_Callstack x) v (Evidence_Copyright x).
Definition set_Evidence_Copyright (v : ptr (slice (Copyright))) (x : Evidence) : Evidence :=
  mkEvidence (Evidence_Identity x) (Evidence_Occurrences x) (Evidence_Callstack x) (Evidence_Licenses x) v.
Definition over_Evidence_Identity (f : ptr (EvidenceIdentityChoice) -> ptr (EvidenceIdentityChoice)) (x : Evidence) : Evidence := set_Evidence_Identity (f (Evidence_Identity x)) x.
Definition over_Evidence_Occurrences (f : ptr (slice (EvidenceOccurrence)) -> ptr (slice (EvidenceOccurrence))) (x : Evidence) : Evidence := set_Evidence_Occurrences (f (Evidence_Occurrences x)) x.
Definition over_Evidence_Callstack (f : ptr (Callstack) -> ptr (Callstack)) (x : Evidence) : Evidence := set_Evidence_Callstack (f (Evidence_Callstack x)) x.
Definition over_Evidence_Licenses (f : ptr (Licenses) -> ptr (Licenses)) (x : Evidence) : Evidence := set_Evidence_Licenses (f (Evidence_Licenses x)) x.
Definition over_Evidence_Copyright (f : ptr (slice (Copyright)) -> ptr (slice (Copyright))) (x : Evidence) : Evidence := set_Evidence_Copyright (f (Evidence_Copyright x)) x.
Definition zero_Evidence : Evidence := mkEvidence (None) (None) (None) (None) (None).

(** /repo/cyclonedx.go:1206-1209 *)
Record Note := mkNote {
  Note_Locale : string;
  Note_Text : AttachedText
}.
Definition set_Note_Locale (v : string) (x : Note) : Note :=
  mkNote v (Note_Text x).
Definition set_Note_Text (v : AttachedText) (x : Note) : Note :=
  mkNote (Note_Locale x) v.
Definition over_Note_Locale (f : string -> string) (x : Note) : Note := set_Note_Locale (f (Note_Locale x)) x.
Definition over_Note_Text (f : AttachedText -> AttachedText) (x : Note) : Note := set_Note_Text (f (Note_Text x)) x.
Definition zero_Note : Note := mkNote ("") (zero_AttachedText).

(** /repo/cyclonedx.go:1323-1335 *)
Record ReleaseNotes := mkReleaseNotes {
  ReleaseNotes_Type : string;
  ReleaseNotes_Title : string;
  ReleaseNotes_FeaturedImage : string;
  ReleaseNotes_SocialImage : string;
  ReleaseNotes_Description : string;
  ReleaseNotes_Timestamp : string;
  ReleaseNotes_Aliases : ptr (slice (string));
  ReleaseNotes_Tags : ptr (slice (string));
  ReleaseNotes_Resolves : ptr (slice (Issue));
  ReleaseNotes_Notes : ptr (slice (Note));
  ReleaseNotes_Properties : ptr (slice (Property))
}.
Definition set_ReleaseNotes_Type (v : string) (x : ReleaseNotes) : ReleaseNotes :=
  mkReleaseNotes v (ReleaseNotes_Title x) (ReleaseNotes_FeaturedImage x) (ReleaseNotes_SocialImage x) (ReleaseNotes_Description x) (ReleaseNotes_Timestamp x) (ReleaseNotes_Aliases x) (ReleaseNotes_Tags x) (ReleaseNotes_Resolves x) (ReleaseNotes_Notes x) (ReleaseNotes_Properties x).
Definition set_ReleaseNotes_Title (v : string) (x : ReleaseNotes) : ReleaseNotes :=
  mkReleaseNotes (ReleaseNotes_Type x) v (ReleaseNotes_FeaturedImage x) (ReleaseNotes_SocialImage x) (ReleaseNotes_Description x) (ReleaseNotes_Timestamp x) (ReleaseNotes_Aliases x) (ReleaseNotes_Tags x) (ReleaseNotes_Resolves x) (ReleaseNotes_Notes x) (ReleaseNotes_Properties x).
Definition set_ReleaseNotes_FeaturedImage (v : string) (x : ReleaseNotes) : ReleaseNotes :=
  mkReleaseNotes (ReleaseNotes_Type x) (ReleaseNotes_Title x) v (ReleaseNotes_SocialImage x) (ReleaseNotes_Description x) (ReleaseNotes_Timestamp x) (ReleaseNotes_Aliases x) (ReleaseNotes_Tags x) (ReleaseNotes_Resolves x) (ReleaseNotes_Notes x) (ReleaseNotes_Properties x).
Definition set_ReleaseNotes_SocialImage (v : string) (x : ReleaseNotes) : ReleaseNotes :=
  mkReleaseNotes (ReleaseNotes_Type x) (ReleaseNotes_Title x) (ReleaseNotes_FeaturedImage x) v (ReleaseNotes_Description x) (ReleaseNotes_Timestamp x) (ReleaseNotes_Aliases x) (ReleaseNotes_Tags x) (ReleaseNotes_Resolves x) (ReleaseNotes_Notes x) (ReleaseNotes_Properties x).
Definition set_ReleaseNotes_Description (v : string) (x : ReleaseNotes) : ReleaseNotes :=
  mkReleaseNotes (ReleaseNotes_Type x) (ReleaseNotes_Title x) (ReleaseNotes_FeaturedImage x) (ReleaseNotes_SocialImage x) v (ReleaseNotes_Timestamp x) (ReleaseNotes_Aliases x) (ReleaseNotes_Tags x) (ReleaseNotes_Resolves x) (ReleaseNotes_Notes x) (ReleaseNotes_Properties x).
Definition set_ReleaseNotes_Timestamp (v : string) (x : ReleaseNotes) : ReleaseNotes :=
  mkReleaseNotes (ReleaseNotes_Type x) (ReleaseNotes_Title x) (ReleaseNotes_FeaturedImage x) (ReleaseNotes_SocialImage x) (ReleaseNotes_Description x) v (ReleaseNotes_Aliases x) (ReleaseNotes_Tags x) (ReleaseNotes_Resolves x) (ReleaseNotes_Notes x) (ReleaseNotes_Properties x).
Definition set_ReleaseNotes_Aliases (v : ptr (slice (string))) (x : ReleaseNotes) : ReleaseNotes :=
  mkReleaseNotes (ReleaseNotes_Type x) (ReleaseNotes_Title x) (ReleaseNotes_FeaturedImage x) (ReleaseNotes_SocialImage x) (ReleaseNotes_Description x) (ReleaseNotes_Timestamp x) v (ReleaseNotes_Tags x) (ReleaseNotes_Resolves x) (ReleaseNotes_Notes x) (ReleaseNotes_Properties x).
Definition set_ReleaseNotes_Tags (v : ptr (slice (string))) (x : ReleaseNotes) : ReleaseNotes :=
  mkReleaseNotes (ReleaseNotes_Type x) (ReleaseNotes_Title x) (ReleaseNotes_FeaturedImage x) (ReleaseNotes_SocialImage x) (ReleaseNotes_Description x) (ReleaseNotes_Timestamp x) (ReleaseNotes_Aliases x) v (ReleaseNotes_Resolves x) (ReleaseNotes_Notes x) (ReleaseNotes_Properties x).
Definition set_ReleaseNotes_Resolves (v : ptr (slice (Issue))) (x : ReleaseNotes) : ReleaseNotes :=
  mkReleaseNotes (ReleaseNotes_Type x) (ReleaseNotes_Title x) (ReleaseNotes_FeaturedImage x) (ReleaseNotes_SocialImage x) (ReleaseNotes_Description x) (ReleaseNotes_Timestamp x) (ReleaseNotes_Aliases x) (ReleaseNotes_Tags x) v (ReleaseNotes_Notes x) (ReleaseNotes_Properties x).
Definition set_ReleaseNotes_Notes (v : ptr (slice (Note))) (x : ReleaseNotes) : ReleaseNotes :=
  mkReleaseNotes (ReleaseNotes_Type x) (ReleaseNotes_Title x) (ReleaseNotes_FeaturedImage x) (ReleaseNotes_SocialImage x) (ReleaseNotes_Description x) (ReleaseNotes_Timestamp x) (ReleaseNotes_Aliases x) (ReleaseNotes_Tags x) (ReleaseNotes_Resolves x) v (ReleaseNotes_Properties x).
Definition set_ReleaseNotes_Properties (v : ptr (slice (Property))) (x : ReleaseNotes) : ReleaseNotes :=
  mkReleaseNotes (ReleaseNotes_Type x) (ReleaseNotes_Title x) (ReleaseNotes_FeaturedImage x) (ReleaseNotes_SocialImage x) (ReleaseNotes_Description x) (ReleaseNotes_Timestamp x) (ReleaseNotes_Aliases x) (ReleaseNotes_Tags x) (ReleaseNotes_Resolves x) (ReleaseNotes_Notes x) v.
Definition over_ReleaseNotes_Type (f : string -> string) (x : ReleaseNotes) : ReleaseNotes := set_ReleaseNotes_Type (f (ReleaseNotes_Type x)) x.
Definition over_ReleaseNotes_Title (f : string -> string) (x : ReleaseNotes) : ReleaseNotes := set_ReleaseNotes_Title (f (ReleaseNotes_Title x)) x.
Definition over_ReleaseNotes_FeaturedImage (f : string -> string) (x : ReleaseNotes) : ReleaseNotes := set_ReleaseNotes_FeaturedImage (f (ReleaseNotes_FeaturedImage x)) x.
Definition over_ReleaseNotes_SocialImage (f : string -> string) (x : ReleaseNotes) : ReleaseNotes := set_ReleaseNotes_SocialImage (f (ReleaseNotes_SocialImage x)) x.
Definition over_ReleaseNotes_Description (f : string -> string) (x : ReleaseNotes) : ReleaseNotes := set_ReleaseNotes_Description (f (ReleaseNotes_Description x)) x.
Definition over_ReleaseNotes_Timestamp (f : string -> string) (x : ReleaseNotes) : ReleaseNotes := set_ReleaseNotes_Timestamp (f (ReleaseNotes_Timestamp x)) x.
Definition over_ReleaseNotes_Aliases (f : ptr (slice (string)) -> ptr (slice (string))) (x : ReleaseNotes) : ReleaseNotes := set_ReleaseNotes_Aliases (f (ReleaseNotes_Aliases x)) x.
Definition over_ReleaseNotes_Tags (f : ptr (slice (string)) -> ptr (slice (string))) (x : ReleaseNotes) : ReleaseNotes := set_ReleaseNotes_Tags (f (ReleaseNotes_Tags x)) x.
Definition over_ReleaseNotes_Resolves (f : ptr (slice (Issue)) -> ptr (slice (Issue))) (x : ReleaseNotes) : ReleaseNotes := set_ReleaseNotes_Resolves (f (ReleaseNotes_Resolves x)) x.
Definition over_ReleaseNotes_Notes (f : ptr (slice (Note)) -> ptr (slice (Note))) (x : ReleaseNotes) : ReleaseNotes := set_ReleaseNotes_Notes (f (ReleaseNotes_Notes x)) x.
Definition over_ReleaseNotes_Properties (f : ptr (slice (Property)) -> ptr (slice (Property))) (x : ReleaseNotes) : ReleaseNotes := set_ReleaseNotes_Properties (f (ReleaseNotes_Properties x)) x.
Definition zero_ReleaseNotes : ReleaseNotes := mkReleaseNotes ("") ("") ("") ("") ("") ("") (None) (None) (None) (None) (None).

(** /repo/cyclonedx.go:1175-1177 *)
Record MLModelParametersApproach := mkMLModelParametersApproach {
  MLModelParametersApproach_Type : MLModelParametersApproachType
}.
Definition set_MLModelParametersApproach_Type (v : MLModelParametersApproachType) (x : MLModelParametersApproach) : MLModelParametersApproach :=
  mkMLModelParametersApproach v.
Definition over_MLModelParametersApproach_Type (f : MLModelParametersApproachType -> MLModelParametersApproachType) (x : MLModelParametersApproach) : MLModelParametersApproach := set_MLModelParametersApproach_Type (f (MLModelParametersApproach_Type x)) x.
Definition zero_MLModelParametersApproach : MLModelParametersApproach := mkMLModelParametersApproach ("").

(** /repo/cyclonedx.go:290-294 *)
Record ComponentDataContents := mkComponentDataContents {
  ComponentDataContents_Attachment : ptr (AttachedText);
  ComponentDataContents_URL : string;
  ComponentDataContents_Properties : ptr (slice (Property))
}.
Definition set_ComponentDataContents_Attachment (v : ptr (AttachedText)) (x : ComponentDataContents) : ComponentDataContents :=
  mkComponentDataContents v (ComponentDataContents_URL x) (ComponentDataContents_Properties x).
Definition set_ComponentDataContents_URL (v : string) (x : ComponentDataContents) : ComponentDataContents :=
  mkComponentDataContents (ComponentDataContents_Attachment x) v (ComponentDataContents_Properties x).
Definition set_ComponentDataContents_Properties (v : ptr (slice (Property))) (x : ComponentDataContents) : ComponentDataContents :=
  mkComponentDataContents (ComponentDataContents_Attachment x) (ComponentDataContents_URL x) v.
Definition over_ComponentDataContents_Attachment (f : ptr (AttachedText) -> ptr (AttachedText)) (x : ComponentDataContents) : ComponentDataContents := set_ComponentDataContents_Attachment (f (ComponentDataContents_Attachment x)) x.
Definition over_ComponentDataContents_URL (f : string -> string) (x : ComponentDataContents) : ComponentDataContents := set_ComponentDataContents_URL (f (ComponentDataContents_URL x)) x.
Definition over_ComponentDataContents_Properties (f : ptr (slice (Property)) -> ptr (slice (Property))) (x : ComponentDataContents) : ComponentDataContents := set_ComponentDataContents_Properties (f (ComponentDataContents_Properties x)) x.
Definition zero_ComponentDataContents : ComponentDataContents := mkComponentDataContents (None) ("") (None).

(** /repo/cyclonedx.go:301-304 *)
Record ComponentDataGraphic := mkComponentDataGraphic {
  ComponentDataGraphic_Name : string;
  ComponentDataGraphic_Image : ptr (AttachedText)
}.
Definition set_ComponentDataGraphic_Name (v : string) (x : ComponentDataGraphic) : ComponentDataGraphic :=
  mkComponentDataGraphic v (ComponentDataGraphic_Image x).
Definition set_ComponentDataGraphic_Image (v : ptr (AttachedText)) (x : ComponentDataGraphic) : ComponentDataGraphic :=
  mkComponentDataGraphic (ComponentDataGraphic_Name x) v.
Definition over_ComponentDataGraphic_Name (f : string -> string) (x : ComponentDataGraphic) : ComponentDataGraphic := set_ComponentDataGraphic_Name (f (ComponentDataGraphic_Name x)) x.
Definition over_ComponentDataGraphic_Image (f : ptr (AttachedText) -> ptr (AttachedText)) (x : ComponentDataGraphic) : ComponentDataGraphic := set_ComponentDataGraphic_Image (f (ComponentDataGraphic_Image x)) x.
Definition zero_ComponentDataGraphic : ComponentDataGraphic := mkComponentDataGraphic ("") (None).

(** /repo/cyclonedx.go:306-309 *)
Record ComponentDataGraphics := mkComponentDataGraphics {
  ComponentDataGraphics_Description : string;
  ComponentDataGraphics_Collection : ptr (slice (ComponentDataGraphic))
}.
Definition set_ComponentDataGraphics_Description (v : string) (x : ComponentDataGraphics) : ComponentDataGraphics :=
  mkComponentDataGraphics v (ComponentDataGraphics_Collection x).
Definition set_ComponentDataGraphics_Collection (v : ptr (slice (ComponentDataGraphic))) (x : ComponentDataGraphics) : ComponentDataGraphics :=
  mkComponentDataGraphics (ComponentDataGraphics_Description x) v.
Definition over_ComponentDataGraphics_Description (f : string -> string) (x : ComponentDataGraphics) : ComponentDataGraphics := set_ComponentDataGraphics_Description (f (ComponentDataGraphics_Description x)) x.
Definition over_ComponentDataGraphics_Collection (f : ptr (slice (ComponentDataGraphic)) -> ptr (slice (ComponentDataGraphic))) (x : ComponentDataGraphics) : ComponentDataGraphics := set_ComponentDataGraphics_Collection (f (ComponentDataGraphics_Collection x)) x.
Definition zero_ComponentDataGraphics : ComponentDataGraphics := mkComponentDataGraphics ("") (None).

(** /repo/cyclonedx.go:296-299 *)
Record ComponentDataGovernanceResponsibleParty := mkComponentDataGovernanceResponsibleParty {
  ComponentDataGovernanceResponsibleParty_Organization : ptr (OrganizationalEntity);
  ComponentDataGovernanceResponsibleParty_Contact : ptr (OrganizationalContact)
}.
Definition set_ComponentDataGovernanceResponsibleParty_Organization (v : ptr (OrganizationalEntity)) (x : ComponentDataGovernanceResponsibleParty) : ComponentDataGovernanceResponsibleParty :=
  mkComponentDataGovernanceResponsibleParty v (ComponentDataGovernanceResponsibleParty_Contact x).
Definition set_ComponentDataGovernanceResponsibleParty_Contact (v : ptr (OrganizationalContact)) (x : ComponentDataGovernanceResponsibleParty) : ComponentDataGovernanceResponsibleParty :=
  mkComponentDataGovernanceResponsibleParty (ComponentDataGovernanceResponsibleParty_Organization x) v.
Definition over_ComponentDataGovernanceResponsibleParty_Organization (f : ptr (OrganizationalEntity) -> ptr (OrganizationalEntity)) (x : ComponentDataGovernanceResponsibleParty) : ComponentDataGovernanceResponsibleParty := set_ComponentDataGovernanceResponsibleParty_Organization (f (ComponentDataGovernanceResponsibleParty_Organization x)) x.
Definition over_ComponentDataGovernanceResponsibleParty_Contact (f : ptr (OrganizationalContact) -> ptr (OrganizationalContact)) (x : ComponentDataGovernanceResponsibleParty) : ComponentDataGovernanceResponsibleParty := set_ComponentDataGovernanceResponsibleParty_Contact (f (ComponentDataGovernanceResponsibleParty_Contact x)) x.
Definition zero_ComponentDataGovernanceResponsibleParty : ComponentDataGovernanceResponsibleParty := mkComponentDataGovernanceResponsibleParty (None) (None).

(** /repo/cyclonedx.go:570-574 *)
Record DataGovernance := mkDataGovernance {
  DataGovernance_Custodians : ptr (slice (ComponentDataGovernanceResponsibleParty));
  DataGovernance_Stewards : ptr (slice (ComponentDataGovernanceResponsibleParty));
  DataGovernance_Owners : ptr (slice (ComponentDataGovernanceResponsibleParty))
}.
Definition set_DataGovernance_Custodians (v : ptr (slice (ComponentDataGovernanceResponsibleParty))) (x : DataGovernance) : DataGovernance :=
  mkDataGovernance v (DataGovernance_Stewards x) (DataGovernance_Owners x).
Definition set_DataGovernance_Stewards (v : ptr (slice (ComponentDataGovernanceResponsibleParty))) (x : DataGovernance) : DataGovernance :=
  mkDataGovernance (DataGovernance_Custodians x) v (DataGovernance_Owners x).
Definition set_DataGovernance_Owners (v : ptr (slice (ComponentDataGovernanceResponsibleParty))) (x : DataGovernance) : DataGovernance :=
  mkDataGovernance (DataGovernance_Custodians x) (DataGovernance_Stewards x) v.
Definition over_DataGovernance_Custodians (f : ptr (slice (ComponentDataGovernanceResponsibleParty)) -> ptr (slice (ComponentDataGovernanceResponsibleParty))) (x : DataGovernance) : DataGovernance := set_DataGovernance_Custodians (f (DataGovernance_Custodians x)) x.
Definition over_DataGovernance_Stewards (f : ptr (slice (ComponentDataGovernanceResponsibleParty)) -> ptr (slice (ComponentDataGovernanceResponsibleParty))) (x : DataGovernance) : DataGovernance := set_DataGovernance_Stewards (f (DataGovernance_Stewards x)) x.
Definition over_DataGovernance_Owners (f : ptr (slice (ComponentDataGovernanceResponsibleParty)) -> ptr (slice (ComponentDataGovernanceResponsibleParty))) (x : DataGovernance) : DataGovernance := set_DataGovernance_Owners (f (DataGovernance_Owners x)) x.
Definition zero_DataGovernance : DataGovernance := mkDataGovernance (None) (None) (None).

(** /repo/cyclonedx.go:278-288 *)
Record ComponentData := mkComponentData {
  ComponentData_BOMRef : string;
  ComponentData_Type : ComponentDataType;
  ComponentData_Name : string;
  ComponentData_Contents : ptr (ComponentDataContents);
  ComponentData_Classification : string;
  ComponentData_SensitiveData : ptr (slice (string));
  ComponentData_Graphics : ptr (ComponentDataGraphics);
  ComponentData_Description : string;
  ComponentData_Governance : ptr (DataGovernance)
}.
Definition set_ComponentData_BOMRef (v : string) (x : ComponentData) : ComponentData :=
  mkComponentData v (ComponentData_Type x) (ComponentData_Name x) (ComponentData_Contents x) (ComponentData_Classification x) (ComponentData_SensitiveData x) (ComponentData_Graphics x) (ComponentData_Description x) (ComponentData_Governance x).
Definition set_ComponentData_Type (v : ComponentDataType) (x : ComponentData) : ComponentData :=
  mkComponentData (ComponentData_BOMRef x) v (ComponentData_Name x) (ComponentData_Contents x) (ComponentData_Classification x) (ComponentData_SensitiveData x) (ComponentData_Graphics x) (ComponentData_Description x) (ComponentData_Governance x).
Definition set_ComponentData_Name (v : string) (x : ComponentData) : ComponentData :=
  mkComponentData (ComponentData_BOMRef x) (ComponentData_Type x) v (ComponentData_Contents x) (ComponentData_Classification x) (ComponentData_SensitiveData x) (ComponentData_Graphics x) (ComponentData_Description x) (ComponentData_Governance x).
Definition set_ComponentData_Contents (v : ptr (ComponentDataContents)) (x : ComponentData) : ComponentData :=
  mkComponentData (ComponentData_BOMRef x) (ComponentData_Type x) (ComponentData_Name x) v (ComponentData_Classification x) (ComponentData_SensitiveData x) (ComponentData_Graphics x) (ComponentData_Description x) (ComponentData_Governance x).
Definition set_ComponentData_Classification (v : string) (x : ComponentData) : ComponentData :=
  mkComponentData (ComponentData_BOMRef x) (ComponentData_Type x) (ComponentData_Name x) (ComponentData_Contents x) v (ComponentData_SensitiveData x) (ComponentData_Graphics x) (ComponentData_Description x) (ComponentData_Governance x).
Definition set_ComponentData_SensitiveData (v : ptr (slice (string))) (x : ComponentData) : ComponentData :=
  mkComponentData (ComponentData_BOMRef x) (ComponentData_Type x) (ComponentData_Name x) (ComponentData_Contents x) (ComponentData_Classification x) v (ComponentData_Graphics x) (ComponentData_Description x) (ComponentData_Governance x).
Definition set_ComponentData_Graphics (v : ptr (ComponentDataGraphics)) (x : ComponentData) : ComponentData :=
  mkComponentData (ComponentData_BOMRef x) (ComponentData_Type x) (ComponentData_Name x) (ComponentData_Contents x) (ComponentData_Classification x) (ComponentData_SensitiveData x) v (ComponentData_Description x) (ComponentData_Governance x).
Definition set_ComponentData_Description (v : string) (x : ComponentData) : ComponentData :=
  mkComponentData (ComponentData_BOMRef x) (ComponentData_Type x) (ComponentData_Name x) (ComponentData_Contents x) (ComponentData_Classification x) (ComponentData_SensitiveData x) (ComponentData_Graphics x) v (ComponentData_Governance x).
Definition set_ComponentData_Governance (v : ptr (DataGovernance)) (x : ComponentData) : ComponentData :=
  mkComponentData (ComponentData_BOMRef x) (ComponentData_Type x) (ComponentData_Name x) (ComponentData_Contents x) (ComponentData_Classification x) (ComponentData_SensitiveData x) (ComponentData_Graphics x) (ComponentData_Description x) v.
Definition over_ComponentData_BOMRef (f : string -> string) (x : ComponentData) : ComponentData := set_ComponentData_BOMRef (f (ComponentData_BOMRef x)) x.
Definition over_ComponentData_Type (f : ComponentDataType -> ComponentDataType) (x : ComponentData) : ComponentData := set_ComponentData_Type (f (ComponentData_Type x)) x.
Definition over_ComponentData_Name (f : string -> string) (x : ComponentData) : ComponentData := set_ComponentData_Name (f (ComponentData_Name x)) x.
Definition over_ComponentData_Contents (f : ptr (ComponentDataContents) -> ptr (ComponentDataContents)) (x : ComponentData) : ComponentData := set_ComponentData_Contents (f (ComponentData_Contents x)) x.
Definition over_ComponentData_Classification (f : string -> string) (x : ComponentData) : ComponentData := set_ComponentData_Classification (f (ComponentData_Classification x)) x.
Definition over_ComponentData_SensitiveData (f : ptr (slice (string)) -> ptr (slice (string))) (x : ComponentData) : ComponentData := set_ComponentData_SensitiveData (f (ComponentData_SensitiveData x)) x.
Definition over_ComponentData_Graphics (f : ptr (ComponentDataGraphics) -> ptr (ComponentDataGraphics)) (x : ComponentData) : ComponentData := set_ComponentData_Graphics (f (ComponentData_Graphics x)) x.
Definition over_ComponentData_Description (f : string -> string) (x : ComponentData) : ComponentData := set_ComponentData_Description (f (ComponentData_Description x)) x.
Definition over_ComponentData_Governance (f : ptr (DataGovernance) -> ptr (DataGovernance)) (x : ComponentData) : ComponentData := set_ComponentData_Governance (f (ComponentData_Governance x)) x.
Definition zero_ComponentData : ComponentData := mkComponentData ("") ("") ("") (None) ("") (None) (None) ("") (None).

(** /repo/cyclonedx.go:1056-1059 *)
Record MLDatasetChoice := mkMLDatasetChoice {
  MLDatasetChoice_Ref : string;
  MLDatasetChoice_ComponentData : ptr (ComponentData)
}.
Definition set_MLDatasetChoice_Ref (v : string) (x : MLDatasetChoice) : MLDatasetChoice :=
  mkMLDatasetChoice v (MLDatasetChoice_ComponentData x).
Definition set_MLDatasetChoice_ComponentData (v : ptr (ComponentData)) (x : MLDatasetChoice) : MLDatasetChoice :=
  mkMLDatasetChoice (MLDatasetChoice_Ref x) v.
Definition over_MLDatasetChoice_Ref (f : string -> string) (x : MLDatasetChoice) : MLDatasetChoice := set_MLDatasetChoice_Ref (f (MLDatasetChoice_Ref x)) x.
Definition over_MLDatasetChoice_ComponentData (f : ptr (ComponentData) -> ptr (ComponentData)) (x : MLDatasetChoice) : MLDatasetChoice := set_MLDatasetChoice_ComponentData (f (MLDatasetChoice_ComponentData x)) x.
Definition zero_MLDatasetChoice : MLDatasetChoice := mkMLDatasetChoice ("") (None).

(** /repo/cyclonedx.go:1061-1063 *)
Record MLInputOutputParameters := mkMLInputOutputParameters {
  MLInputOutputParameters_Format : string
}.
Definition set_MLInputOutputParameters_Format (v : string) (x : MLInputOutputParameters) : MLInputOutputParameters :=
  mkMLInputOutputParameters v.
Definition over_MLInputOutputParameters_Format (f : string -> string) (x : MLInputOutputParameters) : MLInputOutputParameters := set_MLInputOutputParameters_Format (f (MLInputOutputParameters_Format x)) x.
Definition zero_MLInputOutputParameters : MLInputOutputParameters := mkMLInputOutputParameters ("").

(** /repo/cyclonedx.go:1165-1173 *)
Record MLModelParameters := mkMLModelParameters {
  MLModelParameters_Approach : ptr (MLModelParametersApproach);
  MLModelParameters_Task : string;
  MLModelParameters_ArchitectureFamily : string;
  MLModelParameters_ModelArchitecture : string;
  MLModelParameters_Datasets : ptr (slice (MLDatasetChoice));
  MLModelParameters_Inputs : ptr (slice (MLInputOutputParameters));
  MLModelParameters_Outputs : ptr (slice (MLInputOutputParameters))
}.
Definition set_MLModelParameters_Approach (v : ptr (MLModelParametersApproach)) (x : MLModelParameters) : MLModelParameters :=
  mkMLModelParameters v (MLModelParameters_Task x) (MLModelParameters_ArchitectureFamily x) (MLModelParameters_ModelArchitecture x) (MLModelParameters_Datasets x) (MLModelParameters_Inputs x) (MLModelParameters_Outputs x).
Definition set_MLModelParameters_Task (v : string) (x : MLModelParameters) : MLModelParameters :=
  mkMLModelParameters (MLModelParameters_Approach x) v (MLModelParameters_ArchitectureFamily x) (MLModelParameters_ModelArchitecture x) (MLModelParameters_Datasets x) (MLModelParameters_Inputs x) (MLModelParameters_Outputs x).
Definition set_MLModelParameters_ArchitectureFamily (v : string) (x : MLModelParameters) : MLModelParameters :=
  mkMLModelParameters (MLModelParameters_Approach x) (MLModelParameters_Task x) v (MLModelParameters_ModelArchitecture x) (MLModelParameters_Datasets x) (MLModelParameters_Inputs x) (MLModelParameters_Outputs x).
Definition set_MLModelParameters_ModelArchitecture (v : string) (x : MLModelParameters) : MLModelParameters :=
  mkMLModelParameters (MLModelParameters_Approach x) (MLModelParameters_Task x) (MLModelParameters_ArchitectureFamily x) v (MLModelParameters_Datasets x) (MLModelParameters_Inputs x) (MLModelParameters_Outputs x).
Definition set_MLModelParameters_Datasets (v : ptr (slice (MLDatasetChoice))) (x : MLModelParameters) : MLModelParameters :=
  mkMLModelParameters (MLModelParameters_Approach x) (MLModelParameters_Task x) (MLModelParameters_ArchitectureFamily x) (MLModelParameters_ModelArchitecture x) v (MLModelParameters_Inputs x) (MLModelParameters_Outputs x).
Definition set_MLModelParameters_Inputs (v : ptr (slice (MLInputOutputParameters))) (x : MLModelParameters) : MLModelParameters :=
  mkMLModelParameters (MLModelParameters_Approach x) (MLModelParameters_Task x) (MLModelParameters_ArchitectureFamily x) (MLModelParameters_ModelArchitecture x) (MLModelParameters_Datasets x) v (MLModelParameters_Outputs x).
Definition set_MLModelParameters_Outputs (v : ptr (slice (MLInputOutputParameters))) (x : MLModelParameters) : MLModelParameters :=
  mkMLModelParameters (MLModelParameters_Approach x) (MLModelParameters_Task x) (MLModelParameters_ArchitectureFamily x) (MLModelParameters_ModelArchitecture x) (MLModelParameters_Datasets x) (MLModelParameters_Inputs x) v.
Definition over_MLModelParameters_Approach (f : ptr (MLModelParametersApproach) -> ptr (MLModelParametersApproach)) (x : MLModelParameters) : MLModelParameters := set_MLModelParameters_Approach (f (MLModelParameters_Approach x)) x.
Definition over_MLModelParameters_Task (f : string -> string) (x : MLModelParameters) : MLModelParameters := set_MLModelParameters_Task (f (MLModelParameters_Task x)) x.
Definition over_MLModelParameters_ArchitectureFamily (f : string -> string) (x : MLModelParameters) : MLModelParameters := set_MLModelParameters_ArchitectureFamily (f (MLModelParameters_ArchitectureFamily x)) x.
Definition over_MLModelParameters_ModelArchitecture (f : string -> string) (x : MLModelParameters) : MLModelParameters := set_MLModelParameters_ModelArchitecture (f (MLModelParameters_ModelArchitecture x)) x.
Definition over_MLModelParameters_Datasets (f : ptr (slice (MLDatasetChoice)) -> ptr (slice (MLDatasetChoice))) (x : MLModelParameters) : MLModelParameters := set_MLModelParameters_Datasets (f (MLModelParameters_Datasets x)) x.
Definition over_MLModelParameters_Inputs (f : ptr (slice (MLInputOutputParameters)) -> ptr (slice (MLInputOutputParameters))) (x : MLModelParameters) : MLModelParameters := set_MLModelParameters_Inputs (f (MLModelParameters_Inputs x)) x.
Definition over_MLModelParameters_Outputs (f : ptr (slice (MLInputOutputParameters)) -> ptr (slice (MLInputOutputParameters))) (x : MLModelParameters) : MLModelParameters := set_MLModelParameters_Outputs (f (MLModelParameters_Outputs x)) x.
Definition zero_MLModelParameters : MLModelParameters := mkMLModelParameters (None) ("") ("") ("") (None) (None) (None).

(** /repo/cyclonedx.go:1201-1204 *)
Record MLPerformanceMetricConfidenceInterval := mkMLPerformanceMetricConfidenceInterval {
  MLPerformanceMetricConfidenceInterval_LowerBound : string;
  MLPerformanceMetricConfidenceInterval_UpperBound : string
}.
Definition set_MLPerformanceMetricConfidenceInterval_LowerBound (v : string) (x : MLPerformanceMetricConfidenceInterval) : MLPerformanceMetricConfidenceInterval :=
  mkMLPerformanceMetricConfidenceInterval v (MLPerformanceMetricConfidenceInterval_UpperBound x).
Definition set_MLPerformanceMetricConfidenceInterval_UpperBound (v : string) (x : MLPerformanceMetricConfidenceInterval) : MLPerformanceMetricConfidenceInterval :=
  mkMLPerformanceMetricConfidenceInterval (MLPerformanceMetricConfidenceInterval_LowerBound x) v.
Definition over_MLPerformanceMetricConfidenceInterval_LowerBound (f : string -> string) (x : MLPerformanceMetricConfidenceInterval) : MLPerformanceMetricConfidenceInterval := set_MLPerformanceMetricConfidenceInterval_LowerBound (f (MLPerformanceMetricConfidenceInterval_LowerBound x)) x.
Definition over_MLPerformanceMetricConfidenceInterval_UpperBound (f : string -> string) (x : MLPerformanceMetricConfidenceInterval) : MLPerformanceMetricConfidenceInterval := set_MLPerformanceMetricConfidenceInterval_UpperBound (f (MLPerformanceMetricConfidenceInterval_UpperBound x)) x.
Definition zero_MLPerformanceMetricConfidenceInterval : MLPerformanceMetricConfidenceInterval := mkMLPerformanceMetricConfidenceInterval ("") ("").

(** /repo/cyclonedx.go:1194-1199 *)
Record MLPerformanceMetric := mkMLPerformanceMetric {
  MLPerformanceMetric_Type : string;
  MLPerformanceMetric_Value : string;
  MLPerformanceMetric_Slice : string;
  MLPerformanceMetric_ConfidenceInterval : ptr (MLPerformanceMetricConfidenceInterval)
}.
Definition set_MLPerformanceMetric_Type (v : string) (x : MLPerformanceMetric) : MLPerformanceMetric :=
  mkMLPerformanceMetric v (MLPerformanceMetric_Value x) (MLPerformanceMetric_Slice x) (MLPerformanceMetric_ConfidenceInterval x).
Definition set_MLPerformanceMetric_Value (v : string) (x : MLPerformanceMetric) : MLPerformanceMetric :=
  mkMLPerformanceMetric (MLPerformanceMetric_Type x) v (MLPerformanceMetric_Slice x) (MLPerformanceMetric_ConfidenceInterval x).
Definition set_MLPerformanceMetric_Slice (v : string) (x : MLPerformanceMetric) : MLPerformanceMetric :=
  mkMLPerformanceMetric (MLPerformanceMetric_Type x) (MLPerformanceMetric_Value x) v (MLPerformanceMetric_ConfidenceInterval x).
Definition set_MLPerformanceMetric_ConfidenceInterval (v : ptr (MLPerformanceMetricConfidenceInterval)) (x : MLPerformanceMetric) : MLPerformanceMetric :=
  mkMLPerformanceMetric (MLPerformanceMetric_Type x) (MLPerformanceMetric_Value x) (MLPerformanceMetric_Slice x) v.
Definition over_MLPerformanceMetric_Type (f : string -> string) (x : MLPerformanceMetric) : MLPerformanceMetric := set_MLPerformanceMetric_Type (f (MLPerformanceMetric_Type x)) x.
Definition over_MLPerformanceMetric_Value (f : string -> string) (x : MLPerformanceMetric) : MLPerformanceMetric := set_MLPerformanceMetric_Value (f (MLPerformanceMetric_Value x)) x.
Definition over_MLPerformanceMetric_Slice (f : string -> string) (x : MLPerformanceMetric) : MLPerformanceMetric := set_MLPerformanceMetric_Slice (f (MLPerformanceMetric_Slice x)) x.
Definition over_MLPerformanceMetric_ConfidenceInterval (f : ptr (MLPerformanceMetricConfidenceInterval) -> ptr (MLPerformanceMetricConfidenceInterval)) (x : MLPerformanceMetric) : MLPerformanceMetric := set_MLPerformanceMetric_ConfidenceInterval (f (MLPerformanceMetric_ConfidenceInterval x)) x.
Definition zero_MLPerformanceMetric : MLPerformanceMetric := mkMLPerformanceMetric ("") ("") ("") (None).

(** /repo/cyclonedx.go:1189-1192 *)
Record MLQuantitativeAnalysis := mkMLQuantitativeAnalysis {
  MLQuantitativeAnalysis_PerformanceMetrics : ptr (slice (MLPerformanceMetric));
  MLQuantitativeAnalysis_Graphics : ptr (ComponentDataGraphics)
}.
Definition set_MLQuantitativeAnalysis_PerformanceMetrics (v : ptr (slice (MLPerformanceMetric))) (x : MLQuantitativeAnalysis) : MLQuantitativeAnalysis :=
  mkMLQuantitativeAnalysis v (MLQuantitativeAnalysis_Graphics x).
Definition set_MLQuantitativeAnalysis_Graphics (v : ptr (ComponentDataGraphics)) (x : MLQuantitativeAnalysis) : MLQuantitativeAnalysis :=
  mkMLQuantitativeAnalysis (MLQuantitativeAnalysis_PerformanceMetrics x) v.
Definition over_MLQuantitativeAnalysis_PerformanceMetrics (f : ptr (slice (MLPerformanceMetric)) -> ptr (slice (MLPerformanceMetric))) (x : MLQuantitativeAnalysis) : MLQuantitativeAnalysis := set_MLQuantitativeAnalysis_PerformanceMetrics (f (MLQuantitativeAnalysis_PerformanceMetrics x)) x.
Definition over_MLQuantitativeAnalysis_Graphics (f : ptr (ComponentDataGraphics) -> ptr (ComponentDataGraphics)) (x : MLQuantitativeAnalysis) : MLQuantitativeAnalysis := set_MLQuantitativeAnalysis_Graphics (f (MLQuantitativeAnalysis_Graphics x)) x.
Definition zero_MLQuantitativeAnalysis : MLQuantitativeAnalysis := mkMLQuantitativeAnalysis (None) (None).

(** /repo/cyclonedx.go:1087-1090 *)
Record MLModelCardEthicalConsideration := mkMLModelCardEthicalConsideration {
  MLModelCardEthicalConsideration_Name : string;
  MLModelCardEthicalConsideration_MitigationStrategy : string
}.
Definition set_MLModelCardEthicalConsideration_Name (v : string) (x : MLModelCardEthicalConsideration) : MLModelCardEthicalConsideration :=
  mkMLModelCardEthicalConsideration v (MLModelCardEthicalConsideration_MitigationStrategy x).
Definition set_MLModelCardEthicalConsideration_MitigationStrategy (v : string) (x : MLModelCardEthicalConsideration) : MLModelCardEthicalConsideration :=
  mkMLModelCardEthicalConsideration (MLModelCardEthicalConsideration_Name x) v.
Definition over_MLModelCardEthicalConsideration_Name (f : string -> string) (x : MLModelCardEthicalConsideration) : MLModelCardEthicalConsideration := set_MLModelCardEthicalConsideration_Name (f (MLModelCardEthicalConsideration_Name x)) x.
Definition over_MLModelCardEthicalConsideration_MitigationStrategy (f : string -> string) (x : MLModelCardEthicalConsideration) : MLModelCardEthicalConsideration := set_MLModelCardEthicalConsideration_MitigationStrategy (f (MLModelCardEthicalConsideration_MitigationStrategy x)) x.
Definition zero_MLModelCardEthicalConsideration : MLModelCardEthicalConsideration := mkMLModelCardEthicalConsideration ("") ("").

(** /repo/cyclonedx.go:1131-1134 *)
Record MLModelEnergyMeasure := mkMLModelEnergyMeasure {
  MLModelEnergyMeasure_Value : gofloat;
  MLModelEnergyMeasure_Unit : MLModelEnergyUnit
}.
Definition set_MLModelEnergyMeasure_Value (v : gofloat) (x : MLModelEnergyMeasure) : MLModelEnergyMeasure :=
  mkMLModelEnergyMeasure v (MLModelEnergyMeasure_Unit x).
Definition set_MLModelEnergyMeasure_Unit (v : MLModelEnergyUnit) (x : MLModelEnergyMeasure) : MLModelEnergyMeasure :=
  mkMLModelEnergyMeasure (MLModelEnergyMeasure_Value x) v.
Definition over_MLModelEnergyMeasure_Value (f : gofloat -> gofloat) (x : MLModelEnergyMeasure) : MLModelEnergyMeasure := set_MLModelEnergyMeasure_Value (f (MLModelEnergyMeasure_Value x)) x.
Definition over_MLModelEnergyMeasure_Unit (f : MLModelEnergyUnit -> MLModelEnergyUnit) (x : MLModelEnergyMeasure) : MLModelEnergyMeasure := set_MLModelEnergyMeasure_Unit (f (MLModelEnergyMeasure_Unit x)) x.
Definition zero_MLModelEnergyMeasure : MLModelEnergyMeasure := mkMLModelEnergyMeasure (fzero) ("").

(** /repo/cyclonedx.go:1136-1143 *)
Record MLModelEnergyProvider := mkMLModelEnergyProvider {
  MLModelEnergyProvider_BOMRef : string;
  MLModelEnergyProvider_Description : string;
  MLModelEnergyProvider_Organization : ptr (OrganizationalEntity);
  MLModelEnergyProvider_EnergySource : MLModelEnergySource;
  MLModelEnergyProvider_EnergyProvided : ptr (MLModelEnergyMeasure);
  MLModelEnergyProvider_ExternalReferences : ptr (slice (ExternalReference))
}.
Definition set_MLModelEnergyProvider_BOMRef (v : string) (x : MLModelEnergyProvider) : MLModelEnergyProvider :=
  mkMLModelEnergyProvider v (MLModelEnergyProvider_Description x) (MLModelEnergyProvider_Organization x) (MLModelEnergyProvider_EnergySource x) (MLModelEnergyProvider_EnergyProvided x) (MLModelEnergyProvider_ExternalReferences x).
Definition set_MLModelEnergyProvider_Description (v : string) (x : MLModelEnergyProvider) : MLModelEnergyProvider :=
  mkMLModelEnergyProvider (MLModelEnergyProvider_BOMRef x) v (MLModelEnergyProvider_Organization x) (MLModelEnergyProvider_EnergySource x) (MLModelEnergyProvider_EnergyProvided x) (MLModelEnergyProvider_ExternalReferences x).
Definition set_MLModelEnergyProvider_Organization (v : ptr (OrganizationalEntity)) (x : MLModelEnergyProvider) : MLModelEnergyProvider :=
  mkMLModelEnergyProvider (MLModelEnergyProvider_BOMRef x) (MLModelEnergyProvider_Description x) v (MLModelEnergyProvider_EnergySource x) (MLModelEnergyProvider_EnergyProvided x) (MLModelEnergyProvider_ExternalReferences x).
Definition set_MLModelEnergyProvider_EnergySource (v : MLModelEnergySource) (x : MLModelEnergyProvider) : MLModelEnergyProvider :=
  mkMLModelEnergyProvider (MLModelEnergyProvider_BOMRef x) (MLModelEnergyProvider_Description x) (MLModelEnergyProvider_Organization x) v (MLModelEnergyProvider_EnergyProvided x) (MLModelEnergyProvider_ExternalReferences x).
Definition set_MLModelEnergyProvider_EnergyProvided (v : ptr (MLModelEnergyMeasure)) (x : MLModelEnergyProvider) : MLModelEnergyProvider :=
  mkMLModelEnergyProvider (MLModelEnergyProvider_BOMRef x) (MLModelEnergyProvider_Description x) (MLModelEnergyProvider_Organization x) (MLModelEnergyProvider_EnergySource x) v (MLModelEnergyProvider_ExternalReferences x).
Definition set_MLModelEnergyProvider_ExternalReferences (v : ptr (slice (ExternalReference))) (x : MLModelEnergyProvider) : MLModelEnergyProvider :=
  mkMLModelEnergyProvider (MLModelEnergyProvider_BOMRef x) (MLModelEnergyProvider_Description x) (MLModelEnergyProvider_Organization x) (MLModelEnergyProvider_EnergySource x) (MLModelEnergyProvider_EnergyProvided x) v.
Definition over_MLModelEnergyProvider_BOMRef (f : string -> string) (x : MLModelEnergyProvider) : MLModelEnergyProvider := set_MLModelEnergyProvider_BOMRef (f (MLModelEnergyProvider_BOMRef x)) x.
Definition over_MLModelEnergyProvider_Description (f : string -> string) (x : MLModelEnergyProvider) : MLModelEnergyProvider := set_MLModelEnergyProvider_Description (f (MLModelEnergyProvider_Description x)) x.
Definition over_MLModelEnergyProvider_Organization (f : ptr (OrganizationalEntity) -> ptr (OrganizationalEntity)) (x : MLModelEnergyProvider) : MLModelEnergyProvider := set_MLModelEnergyProvider_Organization (f (MLModelEnergyProvider_Organization x)) x.
Definition over_MLModelEnergyProvider_EnergySource (f : MLModelEnergySource -> MLModelEnergySource) (x : MLModelEnergyProvider) : MLModelEnergyProvider := set_MLModelEnergyProvider_EnergySource (f (MLModelEnergyProvider_EnergySource x)) x.
Definition over_MLModelEnergyProvider_EnergyProvided (f : ptr (MLModelEnergyMeasure) -> ptr (MLModelEnergyMeasure)) (x : MLModelEnergyProvider) : MLModelEnergyProvider := set_MLModelEnergyProvider_EnergyProvided (f (MLModelEnergyProvider_EnergyProvided x)) x.
Definition over_MLModelEnergyProvider_ExternalReferences (f : ptr (slice (ExternalReference)) -> ptr (slice (ExternalReference))) (x : MLModelEnergyProvider) : MLModelEnergyProvider := set_MLModelEnergyProvider_ExternalReferences (f (MLModelEnergyProvider_ExternalReferences x)) x.
Definition zero_MLModelEnergyProvider : MLModelEnergyProvider := mkMLModelEnergyProvider ("") ("") (None) ("") (None) (None).

(** /repo/cyclonedx.go:1099-1102 *)
Record MLModelCO2Measure := mkMLModelCO2Measure {
  MLModelCO2Measure_Value : gofloat;
  MLModelCO2Measure_Unit : MLModelCO2Unit
}.
Definition set_MLModelCO2Measure_Value (v : gofloat) (x : MLModelCO2Measure) : MLModelCO2Measure :=
  mkMLModelCO2Measure v (MLModelCO2Measure_Unit x).
Definition set_MLModelCO2Measure_Unit (v : MLModelCO2Unit) (x : MLModelCO2Measure) : MLModelCO2Measure :=
  mkMLModelCO2Measure (MLModelCO2Measure_Value x) v.
Definition over_MLModelCO2Measure_Value (f : gofloat -> gofloat) (x : MLModelCO2Measure) : MLModelCO2Measure := set_MLModelCO2Measure_Value (f (MLModelCO2Measure_Value x)) x.
Definition over_MLModelCO2Measure_Unit (f : MLModelCO2Unit -> MLModelCO2Unit) (x : MLModelCO2Measure) : MLModelCO2Measure := set_MLModelCO2Measure_Unit (f (MLModelCO2Measure_Unit x)) x.
Definition zero_MLModelCO2Measure : MLModelCO2Measure := mkMLModelCO2Measure (fzero) ("").

(** /repo/cyclonedx.go:1108-1115 *)
Record MLModelEnergyConsumption := mkMLModelEnergyConsumption {
  MLModelEnergyConsumption_Activity : MLModelEnergyConsumptionActivity;
  MLModelEnergyConsumption_EnergyProviders : ptr (slice (MLModelEnergyProvider));
  MLModelEnergyConsumption_ActivityEnergyCost : MLModelEnergyMeasure;
  MLModelEnergyConsumption_CO2CostEquivalent : ptr (MLModelCO2Measure);
  MLModelEnergyConsumption_CO2CostOffset : ptr (MLModelCO2Measure);
  MLModelEnergyConsumption_Properties : ptr (slice (Property))
}.
Definition set_MLModelEnergyConsumption_Activity (v : MLModelEnergyConsumptionActivity) (x : MLModelEnergyConsumption) : MLModelEnergyConsumption :=
  mkMLModelEnergyConsumption v (MLModelEnergyConsumption_EnergyProviders x) (MLModelEnergyConsumption_ActivityEnergyCost x) (MLModelEnergyConsumption_CO2CostEquivalent x) (MLModelEnergyConsumption_CO2CostOffset x) (MLModelEnergyConsumption_Properties x).
Definition set_MLModelEnergyConsumption_EnergyProviders (v : ptr (slice (MLModelEnergyProvider))) (x : MLModelEnergyConsumption) : MLModelEnergyConsumption :=
  mkMLModelEnergyConsumption (MLModelEnergyConsumption_Activity x) v (MLModelEnergyConsumption_ActivityEnergyCost x) (MLModelEnergyConsumption_CO2CostEquivalent x) (MLModelEnergyConsumption_CO2CostOffset x) (MLModelEnergyConsumption_Properties x).
Definition set_MLModelEnergyConsumption_ActivityEnergyCost (v : MLModelEnergyMeasure) (x : MLModelEnergyConsumption) : MLModelEnergyConsumption :=
  mkMLModelEnergyConsumption (MLModelEnergyConsumption_Activity x) (MLModelEnergyConsumption_EnergyProviders x) v (MLModelEnergyConsumption_CO2CostEquivalent x) (MLModelEnergyConsumption_CO2CostOffset x) (MLModelEnergyConsumption_Properties x).
Definition set_MLModelEnergyConsumption_CO2CostEquivalent (v : ptr (MLModelCO2Measure)) (x : MLModelEnergyConsumption) : MLModelEnergyConsumption :=
  mkMLModelEnergyConsumption (MLModelEnergyConsumption_Activity x) (MLModelEnergyConsumption_EnergyProviders x) (MLModelEnergyConsumption_ActivityEnergyCost x) v (MLModelEnergyConsumption_CO2CostOffset x) (MLModelEnergyConsumption_Properties x).
Definition set_MLModelEnergyConsumption_CO2CostOffset (v : ptr (MLModelCO2Measure)) (x : MLModelEnergyConsumption) : MLModelEnergyConsumption :=
  mkMLModelEnergyConsumption (MLModelEnergyConsumption_Activity x) (MLModelEnergyConsumption_EnergyProviders x) (MLModelEnergyConsumption_ActivityEnergyCost x) (MLModelEnergyConsumption_CO2CostEquivalent x) v (MLModelEnergyConsumption_Properties x).
Definition set_MLModelEnergyConsumption_Properties (v : ptr (slice (Property))) (x : MLModelEnergyConsumption) : MLModelEnergyConsumption :=
  mkMLModelEnergyConsumption (MLModelEnergyConsumption_Activity x) (MLModelEnergyConsumption_EnergyProviders x) (MLModelEnergyConsumption_ActivityEnergyCost x) (MLModelEnergyConsumption_CO2CostEquivalent x) (MLModelEnergyConsumption_CO2CostOffset x) v.
Definition over_MLModelEnergyConsumption_Activity (f : MLModelEnergyConsumptionActivity -> MLModelEnergyConsumptionActivity) (x : MLModelEnergyConsumption) : MLModelEnergyConsumption := set_MLModelEnergyConsumption_Activity (f (MLModelEnergyConsumption_Activity x)) x.
Definition over_MLModelEnergyConsumption_EnergyProviders (f : ptr (slice (MLModelEnergyProvider)) -> ptr (slice (MLModelEnergyProvider))) (x : MLModelEnergyConsumption) : MLModelEnergyConsumption := set_MLModelEnergyConsumption_EnergyProviders (f (MLModelEnergyConsumption_EnergyProviders x)) x.
Definition over_MLModelEnergyConsumption_ActivityEnergyCost (f : MLModelEnergyMeasure -> MLModelEnergyMeasure) (x : MLModelEnergyConsumption) : MLModelEnergyConsumption := set_MLModelEnergyConsumption_ActivityEnergyCost (f (MLModelEnergyConsumption_ActivityEnergyCost x)) x.
Definition over_MLModelEnergyConsumption_CO2CostEquivalent (f : ptr (MLModelCO2Measure) -> ptr (MLModelCO2Measure)) (x : MLModelEnergyConsumption) : MLModelEnergyConsumption := set_MLModelEnergyConsumption_CO2CostEquivalent (f (MLModelEnergyConsumption_CO2CostEquivalent x)) x.
Definition over_MLModelEnergyConsumption_CO2CostOffset (f : ptr (MLModelCO2Measure) -> ptr (MLModelCO2Measure)) (x : MLModelEnergyConsumption) : MLModelEnergyConsumption := set_MLModelEnergyConsumption_CO2CostOffset (f (MLModelEnergyConsumption_CO2CostOffset x)) x.
Definition over_MLModelEnergyConsumption_Properties (f : ptr (slice (Property)) -> ptr (slice (Property))) (x : MLModelEnergyConsumption) : MLModelEnergyConsumption := set_MLModelEnergyConsumption_Properties (f (MLModelEnergyConsumption_Properties x)) x.
Definition zero_MLModelEnergyConsumption : MLModelEnergyConsumption := mkMLModelEnergyConsumption ("") (None) (zero_MLModelEnergyMeasure) (None) (None) (None).

(** /repo/cyclonedx.go:1082-1085 *)
Record MLModelCardEnvironmentalConsiderations := mkMLModelCardEnvironmentalConsiderations {
  MLModelCardEnvironmentalConsiderations_EnergyConsumptions : ptr (slice (MLModelEnergyConsumption));
  MLModelCardEnvironmentalConsiderations_Properties : ptr (slice (Property))
}.
Definition set_MLModelCardEnvironmentalConsiderations_EnergyConsumptions (v : ptr (slice (MLModelEnergyConsumption))) (x : MLModelCardEnvironmentalConsiderations) : MLModelCardEnvironmentalConsiderations :=
  mkMLModelCardEnvironmentalConsiderations v (MLModelCardEnvironmentalConsiderations_Properties x).
Definition set_MLModelCardEnvironmentalConsiderations_Properties (v : ptr (slice (Property))) (x : MLModelCardEnvironmentalConsiderations) : MLModelCardEnvironmentalConsiderations :=
  mkMLModelCardEnvironmentalConsiderations (MLModelCardEnvironmentalConsiderations_EnergyConsumptions x) v.
Definition over_MLModelCardEnvironmentalConsiderations_EnergyConsumptions (f : ptr (slice (MLModelEnergyConsumption)) -> ptr (slice (MLModelEnergyConsumption))) (x : MLModelCardEnvironmentalConsiderations) : MLModelCardEnvironmentalConsiderations := set_MLModelCardEnvironmentalConsiderations_EnergyConsumptions (f (MLModelCardEnvironmentalConsiderations_EnergyConsumptions x)) x.
Definition over_MLModelCardEnvironmentalConsiderations_Properties (f : ptr (slice (Property)) -> ptr (slice (Property))) (x : MLModelCardEnvironmentalConsiderations) : MLModelCardEnvironmentalConsiderations := set_MLModelCardEnvironmentalConsiderations_Properties (f (MLModelCardEnvironmentalConsiderations_Properties x)) x.
Definition zero_MLModelCardEnvironmentalConsiderations : MLModelCardEnvironmentalConsiderations := mkMLModelCardEnvironmentalConsiderations (None) (None).

(** /repo/cyclonedx.go:1092-1097 *)
Record MLModelCardFairnessAssessment := mkMLModelCardFairnessAssessment {
  MLModelCardFairnessAssessment_GroupAtRisk : string;
  MLModelCardFairnessAssessment_Benefits : string;
  MLModelCardFairnessAssessment_Harms : string;
  MLModelCardFairnessAssessment_MitigationStrategy : string
}.
Definition set_MLModelCardFairnessAssessment_GroupAtRisk (v : string) (x : MLModelCardFairnessAssessment) : MLModelCardFairnessAssessment :=
  mkMLModelCardFairnessAssessment v (MLModelCardFairnessAssessment_Benefits x) (MLModelCardFairnessAssessment_Harms x) (MLModelCardFairnessAssessment_MitigationStrategy x).
Definition set_MLModelCardFairnessAssessment_Benefits (v : string) (x : MLModelCardFairnessAssessment) : MLModelCardFairnessAssessment :=
  mkMLModelCardFairnessAssessment (MLModelCardFairnessAssessment_GroupAtRisk x) v (MLModelCardFairnessAssessment_Harms x) (MLModelCardFairnessAssessment_MitigationStrategy x).
Definition set_MLModelCardFairnessAssessment_Harms (v : string) (x : MLModelCardFairnessAssessment) : MLModelCardFairnessAssessment :=
  mkMLModelCardFairnessAssessment (MLModelCardFairnessAssessment_GroupAtRisk x) (MLModelCardFairnessAssessment_Benefits x) v (MLModelCardFairnessAssessment_MitigationStrategy x).
Definition set_MLModelCardFairnessAssessment_MitigationStrategy (v : string) (x : MLModelCardFairnessAssessment) : MLModelCardFairnessAssessment :=
  mkMLModelCardFairnessAssessment (MLModelCardFairnessAssessment_GroupAtRisk x) (MLModelCardFairnessAssessment_Benefits x) (MLModelCardFairnessAssessment_Harms x) v.
Definition over_MLModelCardFairnessAssessment_GroupAtRisk (f : string -> string) (x : MLModelCardFairnessAssessment) : MLModelCardFairnessAssessment := set_MLModelCardFairnessAssessment_GroupAtRisk (f (MLModelCardFairnessAssessment_GroupAtRisk x)) x.
Definition over_MLModelCardFairnessAssessment_Benefits (f : string -> string) (x : MLModelCardFairnessAssessment) : MLModelCardFairnessAssessment := set_MLModelCardFairnessAssessment_Benefits (f (MLModelCardFairnessAssessment_Benefits x)) x.
Definition over_MLModelCardFairnessAssessment_Harms (f : string -> string) (x : MLModelCardFairnessAssessment) : MLModelCardFairnessAssessment := set_MLModelCardFairnessAssessment_Harms (f (MLModelCardFairnessAssessment_Harms x)) x.
Definition over_MLModelCardFairnessAssessment_MitigationStrategy (f : string -> string) (x : MLModelCardFairnessAssessment) : MLModelCardFairnessAssessment := set_MLModelCardFairnessAssessment_MitigationStrategy (f (MLModelCardFairnessAssessment_MitigationStrategy x)) x.
Definition zero_MLModelCardFairnessAssessment : MLModelCardFairnessAssessment := mkMLModelCardFairnessAssessment ("") ("") ("") ("").

(** /repo/cyclonedx.go:1072-1080 *)
Record MLModelCardConsiderations := mkMLModelCardConsiderations {
  MLModelCardConsiderations_Users : ptr (slice (string));
  MLModelCardConsiderations_UseCases : ptr (slice (string));
  MLModelCardConsiderations_TechnicalLimitations : ptr (slice (string));
  MLModelCardConsiderations_PerformanceTradeoffs : ptr (slice (string));
  MLModelCardConsiderations_EthicalConsiderations : ptr (slice (MLModelCardEthicalConsideration));
  MLModelCardConsiderations_EnvironmentalConsiderations : ptr (MLModelCardEnvironmentalConsiderations);
  MLModelCardConsiderations_FairnessAssessments : ptr (slice (MLModelCardFairnessAssessment))
}.
Definition set_MLModelCardConsiderations_Users (v : ptr (slice (string))) (x : MLModelCardConsiderations) : MLModelCardConsiderations :=
  mkMLModelCardConsiderations v (MLModelCardConsiderations_UseCases x) (MLModelCardConsiderations_TechnicalLimitations x) (MLModelCardConsiderations_PerformanceTradeoffs x) (MLModelCardConsiderations_EthicalConsiderations x) (MLModelCardConsiderations_EnvironmentalConsiderations x) (MLModelCardConsiderations_FairnessAssessments x).
Definition set_MLModelCardConsiderations_UseCases (v : ptr (slice (string))) (x : MLModelCardConsiderations) : MLModelCardConsiderations :=
  mkMLModelCardConsiderations (MLModelCardConsiderations_Users x) v (MLModelCardConsiderations_TechnicalLimitations x) (MLModelCardConsiderations_PerformanceTradeoffs x) (MLModelCardConsiderations_EthicalConsiderations x) (MLModelCardConsiderations_EnvironmentalConsiderations x) (MLModelCardConsiderations_FairnessAssessments x).
Definition set_MLModelCardConsiderations_TechnicalLimitations (v : ptr (slice (string))) (x : MLModelCardConsiderations) : MLModelCardConsiderations :=
  mkMLModelCardConsiderations (MLModelCardConsiderations_Users x) (MLModelCardConsiderations_UseCases x) v (MLModelCardConsiderations_PerformanceTradeoffs x) (MLModelCardConsiderations_EthicalConsiderations x) (MLModelCardConsiderations_EnvironmentalConsiderations x) (MLModelCardConsiderations_FairnessAssessments x).
Definition set_MLModelCardConsiderations_PerformanceTradeoffs (v : ptr (slice (string))) (x : MLModelCardConsiderations) : MLModelCardConsiderations :=
  mkMLModelCardConsiderations (MLModelCardConsiderations_Users x) (MLModelCardConsiderations_UseCases x) (MLModelCardConsiderations_TechnicalLimitations x) v (MLModelCardConsiderations_EthicalConsiderations x) (MLModelCardConsiderations_EnvironmentalConsiderations x) (MLModelCardConsiderations_FairnessAssessments x).
Definition set_MLModelCardConsiderations_EthicalConsiderations (v : ptr (slice (MLModelCardEthicalConsideration))) (x : MLModelCardConsiderations) : MLModelCardConsiderations :=
  mkMLModelCardConsiderations (MLModelCardConsiderations_Users x) (MLModelCardConsiderations_UseCases x) (MLModelCardConsiderations_TechnicalLimitations x) (MLModelCardConsiderations_PerformanceTradeoffs x) v (MLModelCardConsiderations_EnvironmentalConsiderations x) (MLModelCardConsiderations_FairnessAssessments x).
Definition set_MLModelCardConsiderations_EnvironmentalConsiderations (v : ptr (MLModelCardEnvironmentalConsiderations)) (x : MLModelCardConsiderations) : MLModelCardConsiderations :=
  mkMLModelCardConsiderations (MLModelCardConsiderations_Users x) (MLModelCardConsiderations_UseCases x) (MLModelCardConsiderations_TechnicalLimitations x) (MLModelCardConsiderations_PerformanceTradeoffs x) (MLModelCardConsiderations_EthicalConsiderations x) v (MLModelCardConsiderations_FairnessAssessments x).
Definition set_MLModelCardConsiderations_FairnessAssessments (v : ptr (slice (MLModelCardFairnessAssessment))) (x : MLModelCardConsiderations) : MLModelCardConsiderations :=
  mkMLModelCardConsiderations (MLModelCardConsiderations_Users x) (MLModelCardConsiderations_UseCases x) (MLModelCardConsiderations_TechnicalLimitations x) (MLModelCardConsiderations_PerformanceTradeoffs x) (MLModelCardConsiderations_EthicalConsiderations x) (MLModelCardConsiderations_EnvironmentalConsiderations x) v.
Definition over_MLModelCardConsiderations_Users (f : ptr (slice (string)) -> ptr (slice (string))) (x : MLModelCardConsiderations) : MLModelCardConsiderations := set_MLModelCardConsiderations_Users (f (MLModelCardConsiderations_Users x)) x.
Definition over_MLModelCardConsiderations_UseCases (f : ptr (slice (string)) -> ptr (slice (string))) (x : MLModelCardConsiderations) : MLModelCardConsiderations := set_MLModelCardConsiderations_UseCases (f (MLModelCardConsiderations_UseCases x)) x.
Definition over_MLModelCardConsiderations_TechnicalLimitations (f : ptr (slice (string)) -> ptr (slice (string))) (x : MLModelCardConsiderations) : MLModelCardConsiderations := set_MLModelCardConsiderations_TechnicalLimitations (f (MLModelCardConsiderations_TechnicalLimitations x)) x.
Definition over_MLModelCardConsiderations_PerformanceTradeoffs (f : ptr (slice (string)) -> ptr (slice (string))) (x : MLModelCardConsiderations) : MLModelCardConsiderations := set_MLModelCardConsiderations_PerformanceTradeoffs (f (MLModelCardConsiderations_PerformanceTradeoffs x)) x.
Definition over_MLModelCardConsiderations_EthicalConsiderations (f : ptr (slice (MLModelCardEthicalConsideration)) -> ptr (slice (MLModelCardEthicalConsideration))) (x : MLModelCardConsiderations) : MLModelCardConsiderations := set_MLModelCardConsiderations_EthicalConsiderations (f (MLModelCardConsiderations_EthicalConsiderations x)) x.
Definition over_MLModelCardConsiderations_EnvironmentalConsiderations (f : ptr (MLModelCardEnvironmentalConsiderations) -> ptr (MLModelCardEnvironmentalConsiderations)) (x : MLModelCardConsiderations) : MLModelCardConsiderations := set_MLModelCardConsiderations_EnvironmentalConsiderations (f (MLModelCardConsiderations_EnvironmentalConsiderations x)) x.
Definition over_MLModelCardConsiderations_FairnessAssessments (f : ptr (slice (MLModelCardFairnessAssessment)) -> ptr (slice (MLModelCardFairnessAssessment))) (x : MLModelCardConsiderations) : MLModelCardConsiderations := set_MLModelCardConsiderations_FairnessAssessments (f (MLModelCardConsiderations_FairnessAssessments x)) x.
Definition zero_MLModelCardConsiderations : MLModelCardConsiderations := mkMLModelCardConsiderations (None) (None) (None) (None) (None) (None) (None).

(** /repo/cyclonedx.go:1065-1070 *)
Record MLModelCard := mkMLModelCard {
  MLModelCard_BOMRef : string;
  MLModelCard_ModelParameters : ptr (MLModelParameters);
  MLModelCard_QuantitativeAnalysis : ptr (MLQuantitativeAnalysis);
  MLModelCard_Considerations : ptr (MLModelCardConsiderations)
}.
Definition set_MLModelCard_BOMRef (v : string) (x : MLModelCard) : MLModelCard :=
  mkMLModelCard v (MLModelCard_ModelParameters x) (MLModelCard_QuantitativeAnalysis x) (MLModelCard_Considerations x).
Definition set_MLModelCard_ModelParameters (v : ptr (MLModelParameters)) (x : MLModelCard) : MLModelCard :=
  mkMLModelCard (MLModelCard_BOMRef x) v (MLModelCard_QuantitativeAnalysis x) (MLModelCard_Considerations x).
Definition set_MLModelCard_QuantitativeAnalysis (v : ptr (MLQuantitativeAnalysis)) (x : MLModelCard) : MLModelCard :=
  mkMLModelCard (MLModelCard_BOMRef x) (MLModelCard_ModelParameters x) v (MLModelCard_Considerations x).
Definition set_MLModelCard_Considerations (v : ptr (MLModelCardConsiderations)) (x : MLModelCard) : MLModelCard :=
  mkMLModelCard (MLModelCard_BOMRef x) (MLModelCard_ModelParameters x) (MLModelCard_QuantitativeAnalysis x) v.
Definition over_MLModelCard_BOMRef (f : string -> string) (x : MLModelCard) : MLModelCard := set_MLModelCard_BOMRef (f (MLModelCard_BOMRef x)) x.
Definition over_MLModelCard_ModelParameters (f : ptr (MLModelParameters) -> ptr (MLModelParameters)) (x : MLModelCard) : MLModelCard := set_MLModelCard_ModelParameters (f (MLModelCard_ModelParameters x)) x.
Definition over_MLModelCard_QuantitativeAnalysis (f : ptr (MLQuantitativeAnalysis) -> ptr (MLQuantitativeAnalysis)) (x : MLModelCard) : MLModelCard := set_MLModelCard_QuantitativeAnalysis (f (MLModelCard_QuantitativeAnalysis x)) x.
Definition over_MLModelCard_Considerations (f : ptr (MLModelCardConsiderations) -> ptr (MLModelCardConsiderations)) (x : MLModelCard) : MLModelCard := set_MLModelCard_Considerations (f (MLModelCard_Considerations x)) x.
Definition zero_MLModelCard : MLModelCard := mkMLModelCard ("") (None) (None) (None).

(** /repo/cyclonedx.go:368-382 *)
Record CryptoAlgorithmProperties := mkCryptoAlgorithmProperties {
  CryptoAlgorithmProperties_Primitive : CryptoPrimitive;
  CryptoAlgorithmProperties_ParameterSetIdentifier : string;
  CryptoAlgorithmProperties_AlgorithmFamily : string;
  CryptoAlgorithmProperties_Curve : string;
  CryptoAlgorithmProperties_EllipticCurve : string;
  CryptoAlgorithmProperties_ExecutionEnvironment : CryptoExecutionEnvironment;
  CryptoAlgorithmProperties_ImplementationPlatform : ImplementationPlatform;
  CryptoAlgorithmProperties_CertificationLevel : ptr (slice (CryptoCertificationLevel));
  CryptoAlgorithmProperties_Mode : CryptoAlgorithmMode;
  CryptoAlgorithmProperties_Padding : CryptoPadding;
  CryptoAlgorithmProperties_CryptoFunctions : ptr (slice (CryptoFunction));
  CryptoAlgorithmProperties_ClassicalSecurityLevel : ptr (Z);
  CryptoAlgorithmProperties_NistQuantumSecurityLevel : ptr (Z)
}.
Definition set_CryptoAlgorithmProperties_Primitive (v : CryptoPrimitive) (x : CryptoAlgorithmProperties) : CryptoAlgorithmProperties :=
  mkCryptoAlgorithmProperties v (CryptoAlgorithmProperties_ParameterSetIdentifier x) (CryptoAlgorithmProperties_AlgorithmFamily x) (CryptoAlgorithmProperties_Curve x) (CryptoAlgorithmProperties_EllipticCurve x) (CryptoAlgorithmProperties_ExecutionEnvironment x) (CryptoAlgorithmProperties_ImplementationPlatform x) (CryptoAlgorithmProperties_CertificationLevel x) (CryptoAlgorithmProperties_Mode x) (CryptoAlgorithmProperties_Padding x) (CryptoAlgorithmProperties_CryptoFunctions x) (CryptoAlgorithmProperties_ClassicalSecurityLevel x) (CryptoAlgorithmProperties_NistQuantumSecurityLevel x).
Definition set_CryptoAlgorithmProperties_ParameterSetIdentifier (v : string) (x : CryptoAlgorithmProperties) : CryptoAlgorithmProperties :=
  mkCryptoAlgorithmProperties (CryptoAlgorithmProperties_Primitive x) v (CryptoAlgorithmProperties_AlgorithmFamily x) (CryptoAlgorithmProperties_Curve x) (CryptoAlgorithmProperties_EllipticCurve x) (CryptoAlgorithmProperties_ExecutionEnvironment x) (CryptoAlgorithmProperties_ImplementationPlatform x) (CryptoAlgorithmProperties_CertificationLevel x) (CryptoAlgorithmProperties_Mode x) (CryptoAlgorithmProperties_Padding x) (CryptoAlgorithmProperties_CryptoFunctions x) (CryptoAlgorithmProperties_ClassicalSecurityLevel x) (CryptoAlgorithmProperties_NistQuantumSecurityLevel x).
Definition set_CryptoAlgorithmProperties_AlgorithmFamily (v : string) (x : CryptoAlgorithmProperties) : CryptoAlgorithmProperties :=
  mkCryptoAlgorithmProperties (CryptoAlgorithmProperties_Primitive x) (CryptoAlgorithmProperties_ParameterSetIdentifier x) v (CryptoAlgorithmProperties_Curve x) (CryptoAlgorithmProperties_EllipticCurve x) (CryptoAlgorithmProperties_ExecutionEnvironment x) (CryptoAlgorithmProperties_ImplementationPlatform x) (CryptoAlgorithmProperties_CertificationLevel x) (CryptoAlgorithmProperties_Mode x) (CryptoAlgorithmProperties_Padding x) (CryptoAlgorithmProperties_CryptoFunctions x) (CryptoAlgorithmProperties_ClassicalSecurityLevel x) (CryptoAlgorithmProperties_NistQuantumSecurityLevel x).
Definition set_CryptoAlgorithmProperties_Curve (v : string) (x : CryptoAlgorithmProperties) : CryptoAlgorithmProperties :=
  mkCryptoAlgorithmProperties (CryptoAlgorithmProperties_Primitive x) (CryptoAlgorithmProperties_ParameterSetIdentifier x) (CryptoAlgorithmProperties_AlgorithmFamily x) v (CryptoAlgorithmProperties_EllipticCurve x) (CryptoAlgorithmProperties_ExecutionEnvironment x) (CryptoAlgorithmProperties_ImplementationPlatform x) (CryptoAlgorithmProperties_CertificationLevel x) (CryptoAlgorithmProperties_Mode x) (CryptoAlgorithmProperties_Padding x) (CryptoAlgorithmProperties_CryptoFunctions x) (CryptoAlgorithmProperties_ClassicalSecurityLevel x) (CryptoAlgorithmProperties_NistQuantumSecurityLevel x).
Definition set_CryptoAlgorithmProperties_EllipticCurve (v : string) (x : CryptoAlgorithmProperties) : CryptoAlgorithmProperties :=
  mkCryptoAlgorithmProperties (CryptoAlgorithmProperties_Primitive x) (CryptoAlgorithmProperties_ParameterSetIdentifier x) (CryptoAlgorithmProperties_AlgorithmFamily x) (CryptoAlgorithmProperties_Curve x) v (CryptoAlgorithmProperties_ExecutionEnvironment x) (CryptoAlgorithmProperties_ImplementationPlatform x) (CryptoAlgorithmProperties_CertificationLevel x) (CryptoAlgorithmProperties_Mode x) (CryptoAlgorithmProperties_Padding x) (CryptoAlgorithmProperties_CryptoFunctions x) (CryptoAlgorithmProperties_ClassicalSecurityLevel x) (CryptoAlgorithmProperties_NistQuantumSecurityLevel x).
Definition set_CryptoAlgorithmProperties_ExecutionEnvironment (v : CryptoExecutionEnvironment) (x : CryptoAlgorithmProperties) : CryptoAlgorithmProperties :=
  mkCryptoAlgorithmProperties (CryptoAlgorithmProperties_Primitive x) (CryptoAlgorithmProperties_ParameterSetIdentifier x) (CryptoAlgorithmProperties_AlgorithmFamily x) (CryptoAlgorithmProperties_Curve x) (CryptoAlgorithmProperties_EllipticCurve x) v (CryptoAlgorithmProperties_ImplementationPlatform x) (CryptoAlgorithmProperties_CertificationLevel x) (CryptoAlgorithmProperties_Mode x) (CryptoAlgorithmProperties_Padding x) (CryptoAlgorithmProperties_CryptoFunctions x) (CryptoAlgorithmProperties_ClassicalSecurityLevel x) (CryptoAlgorithmProperties_NistQuantumSecurityLevel x).
Definition set_CryptoAlgorithmProperties_ImplementationPlatform (v : ImplementationPlatform) (x : CryptoAlgorithmProperties) : CryptoAlgorithmProperties :=
  mkCryptoAlgorithmProperties (CryptoAlgorithmProperties_Primitive x) (CryptoAlgorithmProperties_ParameterSetIdentifier x) (CryptoAlgorithmProperties_AlgorithmFamily x) (CryptoAlgorithmProperties_Curve x) (CryptoAlgorithmProperties_EllipticCurve x) (CryptoAlgorithmProperties_ExecutionEnvironment x) v (CryptoAlgorithmProperties_CertificationLevel x) (CryptoAlgorithmProperties_Mode x) (CryptoAlgorithmProperties_Padding x) (CryptoAlgorithmProperties_CryptoFunctions x) (CryptoAlgorithmProperties_ClassicalSecurityLevel x) (CryptoAlgorithmProperties_NistQuantumSecurityLevel x).
Definition set_CryptoAlgorithmProperties_CertificationLevel (v : ptr (slice (CryptoCertificationLevel))) (x : CryptoAlgorithmProperties) : CryptoAlgorithmProperties :=
  mkCryptoAlgorithmProperties (CryptoAlgorithmProperties_Primitive x) (CryptoAlgorithmProperties_ParameterSetIdentifier x) (CryptoAlgorithmProperties_AlgorithmFamily x) (CryptoAlgorithmProperties_Curve x) (CryptoAlgorithmProperties_EllipticCurve x) (CryptoAlgorithmProperties_ExecutionEnvironment x) (CryptoAlgorithmProperties_ImplementationPlatform x) v (CryptoAlgorithmProperties_Mode x) (CryptoAlgorithmProperties_Padding x) (CryptoAlgorithmProperties_CryptoFunctions x) (CryptoAlgorithmProperties_ClassicalSecurityLevel x) (CryptoAlgorithmProperties_NistQuantumSecurityLevel x).
Definition set_CryptoAlgorithmProperties_Mode (v : CryptoAlgorithmMode) (x : CryptoAlgorithmProperties) : CryptoAlgorithmProperties :=
  mkCryptoAlgorithmProperties (CryptoAlgorithmProperties_Primitive x) (CryptoAlgorithmProperties_ParameterSetIdentifier x) (CryptoAlgorithmProperties_AlgorithmFamily x) (CryptoAlgorithmProperties_Curve x) (CryptoAlgorithmProperties_EllipticCurve x) (CryptoAlgorithmProperties_ExecutionEnvironment x) (CryptoAlgorithmProperties_ImplementationPlatform x) (CryptoAlgorithmProperties_CertificationLevel x) v (CryptoAlgorithmProperties_Padding x) (CryptoAlgorithmProperties_CryptoFunctions x) (CryptoAlgorithmProperties_ClassicalSecurityLevel x) (CryptoAlgorithmProperties_NistQuantumSecurityLevel x).
Definition set_CryptoAlgorithmProperties_Padding (v : CryptoPadding) (x : CryptoAlgorithmProperties) : CryptoAlgorithmProperties :=
  mkCryptoAlgorithmProperties (CryptoAlgorithmProperties_Primitive x) (CryptoAlgorithmProperties_ParameterSetIdentifier x) (CryptoAlgorithmProperties_AlgorithmFamily x) (CryptoAlgorithmProperties_Curve x) (CryptoAlgorithmProperties_EllipticCurve x) (CryptoAlgorithmProperties_ExecutionEnvironment x) (CryptoAlgorithmProperties_ImplementationPlatform x) (CryptoAlgorithmProperties_CertificationLevel x) (CryptoAlgorithmProperties_Mode x) v (CryptoAlgorithmProperties_CryptoFunctions x) (CryptoAlgorithmProperties_ClassicalSecurityLevel x) (CryptoAlgorithmProperties_NistQuantumSecurityLevel x).
Definition set_CryptoAlgorithmProperties_CryptoFunctions (v : ptr (slice (CryptoFunction))) (x : CryptoAlgorithmProperties) : CryptoAlgorithmProperties :=
  mkCryptoAlgorithmProperties (CryptoAlgorithmProperties_Primitive x) (CryptoAlgorithmProperties_ParameterSetIdentifier x) (CryptoAlgorithmProperties_AlgorithmFamily x) (CryptoAlgorithmProperties_Curve x) (CryptoAlgorithmProperties_EllipticCurve x) (CryptoAlgorithmProperties_ExecutionEnvironment x) (CryptoAlgorithmProperties_ImplementationPlatform x) (CryptoAlgorithmProperties_CertificationLevel x) (CryptoAlgorithmProperties_Mode x) (CryptoAlgorithmProperties_Padding x) v (CryptoAlgorithmProperties_ClassicalSecurityLevel x) (CryptoAlgorithmProperties_NistQuantumSecurityLevel x).
Definition set_CryptoAlgorithmProperties_ClassicalSecurityLevel (v : ptr (Z)) (x : CryptoAlgorithmProperties) : CryptoAlgorithmProperties :=
  mkCryptoAlgorithmProperties (CryptoAlgorithmProperties_Primitive x) (CryptoAlgorithmProperties_ParameterSetIdentifier x) (CryptoAlgorithmProperties_AlgorithmFamily x) (CryptoAlgorithmProperties_Curve x) (CryptoAlgorithmProperties_EllipticCurve x) (CryptoAlgorithmProperties_ExecutionEnvironment x) (CryptoAlgorithmProperties_ImplementationPlatform x) (CryptoAlgorithmProperties_CertificationLevel x) (CryptoAlgorithmProperties_Mode x) (CryptoAlgorithmProperties_Padding x) (CryptoAlgorithmProperties_CryptoFunctions x) v (CryptoAlgorithmProperties_NistQuantumSecurityLevel x).
Definition set_CryptoAlgorithmProperties_NistQuantumSecurityLevel (v : ptr (Z)) (x : CryptoAlgorithmProperties) : CryptoAlgorithmProperties :=
  mkCryptoAlgorithmProperties (CryptoAlgorithmProperties_Primitive x) (CryptoAlgorithmProperties_ParameterSetIdentifier x) (CryptoAlgorithmProperties_AlgorithmFamily x) (CryptoAlgorithmProperties_Curve x) (CryptoAlgorithmProperties_EllipticCurve x) (CryptoAlgorithmProperties_ExecutionEnvironment x) (CryptoAlgorithmProperties_ImplementationPlatform x) (CryptoAlgorithmProperties_CertificationLevel x) (CryptoAlgorithmProperties_Mode x) (CryptoAlgorithmProperties_Padding x) (CryptoAlgorithmProperties_CryptoFunctions x) (CryptoAlgorithmProperties_ClassicalSecurityLevel x) v.
Definition over_CryptoAlgorithmProperties_Primitive (f : CryptoPrimitive -> CryptoPrimitive) (x : CryptoAlgorithmProperties) : CryptoAlgorithmProperties := set_CryptoAlgorithmProperties_Primitive (f (CryptoAlgorithmProperties_Primitive x)) x.
Definition over_CryptoAlgorithmProperties_ParameterSetIdentifier (f : string -> string) (x : CryptoAlgorithmProperties) : CryptoAlgorithmProperties := set_CryptoAlgorithmProperties_ParameterSetIdentifier (f (CryptoAlgorithmProperties_ParameterSetIdentifier x)) x.
Definition over_CryptoAlgorithmProperties_AlgorithmFamily (f : string -> string) (x : CryptoAlgorithmProperties) : CryptoAlgorithmProperties := set_CryptoAlgorithmProperties_AlgorithmFamily (f (CryptoAlgorithmProperties_AlgorithmFamily x)) x.
Definition over_CryptoAlgorithmProperties_Curve (f : string -> string) (x : CryptoAlgorithmProperties) : CryptoAlgorithmProperties := set_CryptoAlgorithmProperties_Curve (f (CryptoAlgorithmProperties_Curve x)) x.
Definition over_CryptoAlgorithmProperties_EllipticCurve (f : string -> string) (x : CryptoAlgorithmProperties) : CryptoAlgorithmProperties := set_CryptoAlgorithmProperties_EllipticCurve (f (CryptoAlgorithmProperties_EllipticCurve x)) x.
Definition over_CryptoAlgorithmProperties_ExecutionEnvironment (f : CryptoExecutionEnvironment -> CryptoExecutionEnvironment) (x : CryptoAlgorithmProperties) : CryptoAlgorithmProperties := set_CryptoAlgorithmProperties_ExecutionEnvironment (f (CryptoAlgorithmProperties_ExecutionEnvironment x)) x.
Definition over_CryptoAlgorithmProperties_ImplementationPlatform (f : ImplementationPlatform -> ImplementationPlatform) (x : CryptoAlgorithmProperties) : CryptoAlgorithmProperties := set_CryptoAlgorithmProperties_ImplementationPlatform (f (CryptoAlgorithmProperties_ImplementationPlatform x)) x.
Definition over_CryptoAlgorithmProperties_CertificationLevel (f : ptr (slice (CryptoCertificationLevel)) -> ptr (slice (CryptoCertificationLevel))) (x : CryptoAlgorithmProperties) : CryptoAlgorithmProperties := set_CryptoAlgorithmProperties_CertificationLevel (f (CryptoAlgorithmProperties_CertificationLevel x)) x.
Definition over_CryptoAlgorithmProperties_Mode (f : CryptoAlgorithmMode -> CryptoAlgorithmMode) (x : CryptoAlgorithmProperties) : CryptoAlgorithmProperties := set_CryptoAlgorithmProperties_Mode (f (CryptoAlgorithmProperties_Mode x)) x.
Definition over_CryptoAlgorithmProperties_Padding (f : CryptoPadding -> CryptoPadding) (x : CryptoAlgorithmProperties) : CryptoAlgorithmProperties := set_CryptoAlgorithmProperties_Padding (f (CryptoAlgorithmProperties_Padding x)) x.
Definition over_CryptoAlgorithmProperties_CryptoFunctions (f : ptr (slice (CryptoFunction)) -> ptr (slice (CryptoFunction))) (x : CryptoAlgorithmProperties) : CryptoAlgorithmProperties := set_CryptoAlgorithmProperties_CryptoFunctions (f (CryptoAlgorithmProperties_CryptoFunctions x)) x.
Definition over_CryptoAlgorithmProperties_ClassicalSecurityLevel (f : ptr (Z) -> ptr (Z)) (x : CryptoAlgorithmProperties) : CryptoAlgorithmProperties := set_CryptoAlgorithmProperties_ClassicalSecurityLevel (f (CryptoAlgorithmProperties_ClassicalSecurityLevel x)) x.
Definition over_CryptoAlgorithmProperties_NistQuantumSecurityLevel (f : ptr (Z) -> ptr (Z)) (x : CryptoAlgorithmProperties) : CryptoAlgorithmProperties := set_CryptoAlgorithmProperties_NistQuantumSecurityLevel (f (CryptoAlgorithmProperties_NistQuantumSecurityLevel x)) x.
Definition zero_CryptoAlgorithmProperties : CryptoAlgorithmProperties := mkCryptoAlgorithmProperties ("") ("") ("") ("") ("") ("") ("") (None) ("") ("") (None) (None) (None).

(** /repo/cyclonedx.go:1880-1883 *)
Record PredefinedCertificateState := mkPredefinedCertificateState {
  PredefinedCertificateState_State : CertificateStateType;
  PredefinedCertificateState_Reason : string
}.
Definition set_PredefinedCertificateState_State (v : CertificateStateType) (x : PredefinedCertificateState) : PredefinedCertificateState :=
  mkPredefinedCertificateState v (PredefinedCertificateState_Reason x).
Definition set_PredefinedCertificateState_Reason (v : string) (x : PredefinedCertificateState) : PredefinedCertificateState :=
  mkPredefinedCertificateState (PredefinedCertificateState_State x) v.
Definition over_PredefinedCertificateState_State (f : CertificateStateType -> CertificateStateType) (x : PredefinedCertificateState) : PredefinedCertificateState := set_PredefinedCertificateState_State (f (PredefinedCertificateState_State x)) x.
Definition over_PredefinedCertificateState_Reason (f : string -> string) (x : PredefinedCertificateState) : PredefinedCertificateState := set_PredefinedCertificateState_Reason (f (PredefinedCertificateState_Reason x)) x.
Definition zero_PredefinedCertificateState : PredefinedCertificateState := mkPredefinedCertificateState ("") ("").

(** /repo/cyclonedx.go:1886-1890 *)
Record CustomCertificateState := mkCustomCertificateState {
  CustomCertificateState_Name : string;
  CustomCertificateState_Description : string;
  CustomCertificateState_Reason : string
}.
Definition set_CustomCertificateState_Name (v : string) (x : CustomCertificateState) : CustomCertificateState :=
  mkCustomCertificateState v (CustomCertificateState_Description x) (CustomCertificateState_Reason x).
Definition set_CustomCertificateState_Description (v : string) (x : CustomCertificateState) : CustomCertificateState :=
  mkCustomCertificateState (CustomCertificateState_Name x) v (CustomCertificateState_Reason x).
Definition set_CustomCertificateState_Reason (v : string) (x : CustomCertificateState) : CustomCertificateState :=
  mkCustomCertificateState (CustomCertificateState_Name x) (CustomCertificateState_Description x) v.
Definition over_CustomCertificateState_Name (f : string -> string) (x : CustomCertificateState) : CustomCertificateState := set_CustomCertificateState_Name (f (CustomCertificateState_Name x)) x.
Definition over_CustomCertificateState_Description (f : string -> string) (x : CustomCertificateState) : CustomCertificateState := set_CustomCertificateState_Description (f (CustomCertificateState_Description x)) x.
Definition over_CustomCertificateState_Reason (f : string -> string) (x : CustomCertificateState) : CustomCertificateState := set_CustomCertificateState_Reason (f (CustomCertificateState_Reason x)) x.
Definition zero_CustomCertificateState : CustomCertificateState := mkCustomCertificateState ("") ("") ("").

(** /repo/cyclonedx.go:1874-1877 *)
Record CertificateState := mkCertificateState {
  CertificateState_Predefined : ptr (PredefinedCertificateState);
  CertificateState_Custom : ptr (CustomCertificateState)
}.
Definition set_CertificateState_Predefined (v : ptr (PredefinedCertificateState)) (x : CertificateState) : CertificateState :=
  mkCertificateState v (CertificateState_Custom x).
Definition set_CertificateState_Custom (v : ptr (CustomCertificateState)) (x : CertificateState) : CertificateState :=
  mkCertificateState (CertificateState_Predefined x) v.
Definition over_CertificateState_Predefined (f : ptr (PredefinedCertificateState) -> ptr (PredefinedCertificateState)) (x : CertificateState) : CertificateState := set_CertificateState_Predefined (f (CertificateState_Predefined x)) x.
Definition over_CertificateState_Custom (f : ptr (CustomCertificateState) -> ptr (CustomCertificateState)) (x : CertificateState) : CertificateState := set_CertificateState_Custom (f (CertificateState_Custom x)) x.
Definition zero_CertificateState : CertificateState := mkCertificateState (None) (None).

(** /repo/cyclonedx.go:1913-1916 *)
Record CommonCertificateExtension := mkCommonCertificateExtension {
  CommonCertificateExtension_Name : CertificateExtensionName;
  CommonCertificateExtension_Value : string
}.
Definition set_CommonCertificateExtension_Name (v : CertificateExtensionName) (x : CommonCertificateExtension) : CommonCertificateExtension :=
  mkCommonCertificateExtension v (CommonCertificateExtension_Value x).
Definition set_CommonCertificateExtension_Value (v : string) (x : CommonCertificateExtension) : CommonCertificateExtension :=
  mkCommonCertificateExtension (CommonCertificateExtension_Name x) v.
Definition over_CommonCertificateExtension_Name (f : CertificateExtensionName -> CertificateExtensionName) (x : CommonCertificateExtension) : CommonCertificateExtension := set_CommonCertificateExtension_Name (f (CommonCertificateExtension_Name x)) x.
Definition over_CommonCertificateExtension_Value (f : string -> string) (x : CommonCertificateExtension) : CommonCertificateExtension := set_CommonCertificateExtension_Value (f (CommonCertificateExtension_Value x)) x.
Definition zero_CommonCertificateExtension : CommonCertificateExtension := mkCommonCertificateExtension ("") ("").

(** /repo/cyclonedx.go:1919-1922 *)
Record CustomCertificateExtension := mkCustomCertificateExtension {
  CustomCertificateExtension_Name : string;
  CustomCertificateExtension_Value : string
}.
Definition set_CustomCertificateExtension_Name (v : string) (x : CustomCertificateExtension) : CustomCertificateExtension :=
  mkCustomCertificateExtension v (CustomCertificateExtension_Value x).
Definition set_CustomCertificateExtension_Value (v : string) (x : CustomCertificateExtension) : CustomCertificateExtension :=
  mkCustomCertificateExtension (CustomCertificateExtension_Name x) v.
Definition over_CustomCertificateExtension_Name (f : string -> string) (x : CustomCertificateExtension) : CustomCertificateExtension := set_CustomCertificateExtension_Name (f (CustomCertificateExtension_Name x)) x.
Definition over_CustomCertificateExtension_Value (f : string -> string) (x : CustomCertificateExtension) : CustomCertificateExtension := set_CustomCertificateExtension_Value (f (CustomCertificateExtension_Value x)) x.
Definition zero_CustomCertificateExtension : CustomCertificateExtension := mkCustomCertificateExtension ("") ("").

(** /repo/cyclonedx.go:1907-1910 *)
Record CertificateExtension := mkCertificateExtension {
  CertificateExtension_Common : ptr (CommonCertificateExtension);
  CertificateExtension_Custom : ptr (CustomCertificateExtension)
}.
Definition set_CertificateExtension_Common (v : ptr (CommonCertificateExtension)) (x : CertificateExtension) : CertificateExtension :=
  mkCertificateExtension v (CertificateExtension_Custom x).
Definition set_CertificateExtension_Custom (v : ptr (CustomCertificateExtension)) (x : CertificateExtension) : CertificateExtension :=
  mkCertificateExtension (CertificateExtension_Common x) v.
Definition over_CertificateExtension_Common (f : ptr (CommonCertificateExtension) -> ptr (CommonCertificateExtension)) (x : CertificateExtension) : CertificateExtension := set_CertificateExtension_Common (f (CertificateExtension_Common x)) x.
Definition over_CertificateExtension_Custom (f : ptr (CustomCertificateExtension) -> ptr (CustomCertificateExtension)) (x : CertificateExtension) : CertificateExtension := set_CertificateExtension_Custom (f (CertificateExtension_Custom x)) x.
Definition zero_CertificateExtension : CertificateExtension := mkCertificateExtension (None) (None).

(** /repo/cyclonedx.go:1866-1869 *)
Record RelatedCryptographicAsset := mkRelatedCryptographicAsset {
  RelatedCryptographicAsset_Type : string;
  RelatedCryptographicAsset_Ref : string
}.
Definition set_RelatedCryptographicAsset_Type (v : string) (x : RelatedCryptographicAsset) : RelatedCryptographicAsset :=
  mkRelatedCryptographicAsset v (RelatedCryptographicAsset_Ref x).
Definition set_RelatedCryptographicAsset_Ref (v : string) (x : RelatedCryptographicAsset) : RelatedCryptographicAsset :=
  mkRelatedCryptographicAsset (RelatedCryptographicAsset_Type x) v.
Definition over_RelatedCryptographicAsset_Type (f : string -> string) (x : RelatedCryptographicAsset) : RelatedCryptographicAsset := set_RelatedCryptographicAsset_Type (f (RelatedCryptographicAsset_Type x)) x.
Definition over_RelatedCryptographicAsset_Ref (f : string -> string) (x : RelatedCryptographicAsset) : RelatedCryptographicAsset := set_RelatedCryptographicAsset_Ref (f (RelatedCryptographicAsset_Ref x)) x.
Definition zero_RelatedCryptographicAsset : RelatedCryptographicAsset := mkRelatedCryptographicAsset ("") ("").

(** /repo/cyclonedx.go:171-191 *)
Record CertificateProperties := mkCertificateProperties {
  CertificateProperties_SerialNumber : string;
  CertificateProperties_SubjectName : string;
  CertificateProperties_IssuerName : string;
  CertificateProperties_NotValidBefore : string;
  CertificateProperties_NotValidAfter : string;
  CertificateProperties_SignatureAlgorithmRef : BOMReference;
  CertificateProperties_SubjectPublicKeyRef : BOMReference;
  CertificateProperties_CertificateFormat : string;
  CertificateProperties_CertificateExtension : string;
  CertificateProperties_CertificateFileExtension : string;
  CertificateProperties_Fingerprint : ptr (Hash);
  CertificateProperties_CertificateState : ptr (slice (CertificateState));
  CertificateProperties_CertificateExtensions : ptr (slice (CertificateExtension));
  CertificateProperties_RelatedCryptographicAssets : ptr (slice (RelatedCryptographicAsset));
  CertificateProperties_CreationDate : string;
  CertificateProperties_ActivationDate : string;
  CertificateProperties_DeactivationDate : string;
  CertificateProperties_RevocationDate : string;
  CertificateProperties_DestructionDate : string
}.
Definition set_CertificateProperties_SerialNumber (v : string) (x : CertificateProperties) : CertificateProperties :=
  mkCertificateProperties v (CertificateProperties_SubjectName x) (CertificateProperties_IssuerName x) (CertificateProperties_NotValidBefore x) (CertificateProperties_NotValidAfter x) (CertificateProperties_SignatureAlgorithmRef x) (CertificateProperties_SubjectPublicKeyRef x) (CertificateProperties_CertificateFormat x) (CertificateProperties_CertificateExtension x) (CertificateProperties_CertificateFileExtension x) (CertificateProperties_Fingerprint x) (CertificateProperties_CertificateState x) (CertificateProperties_CertificateExtensions x) (CertificateProperties_RelatedCryptographicAssets x) (CertificateProperties_CreationDate x) (CertificateProperties_ActivationDate x) (CertificateProperties_DeactivationDate x) (CertificateProperties_RevocationDate x) (CertificateProperties_DestructionDate x).
Definition set_CertificateProperties_SubjectName (v : string) (x : CertificateProperties) : CertificateProperties :=
  mkCertificateProperties (CertificateProperties_SerialNumber x) v (CertificateProperties_IssuerName x) (CertificateProperties_NotValidBefore x) (CertificateProperties_NotValidAfter x) (CertificateProperties_SignatureAlgorithmRef x) (CertificateProperties_SubjectPublicKeyRef x) (CertificateProperties_CertificateFormat x) (CertificateProperties_CertificateExtension x) (CertificateProperties_CertificateFileExtension x) (CertificateProperties_Fingerprint x) (CertificateProperties_CertificateState x) (CertificateProperties_CertificateExtensions x) (CertificateProperties_RelatedCryptographicAssets x) (CertificateProperties_CreationDate x) (CertificateProperties_ActivationDate x) (CertificateProperties_DeactivationDate x) (CertificateProperties_RevocationDate x) (CertificateProperties_DestructionDate x).
Definition set_CertificateProperties_IssuerName (v : string) (x : CertificateProperties) : CertificateProperties :=
  mkCertificateProperties (CertificateProperties_SerialNumber x) (CertificateProperties_SubjectName x) v (CertificateProperties_NotValidBefore x) (CertificateProperties_NotValidAfter x) (CertificateProperties_SignatureAlgorithmRef x) (CertificateProperties_SubjectPublicKeyRef x) (CertificateProperties_CertificateFormat x) (CertificateProperties_CertificateExtension x) (CertificateProperties_CertificateFileExtension x) (CertificateProperties_Fingerprint x) (CertificateProperties_CertificateState x) (CertificateProperties_CertificateExtensions x) (CertificateProperties_RelatedCryptographicAssets x) (CertificateProperties_CreationDate x) (CertificateProperties_ActivationDate x) (CertificateProperties_DeactivationDate x) (CertificateProperties_RevocationDate x) (CertificateProperties_DestructionDate x).
Definition set_CertificateProperties_NotValidBefore (v : string) (x : CertificateProperties) : CertificateProperties :=
  mkCertificateProperties (CertificateProperties_SerialNumber x) (CertificateProperties_SubjectName x) (CertificateProperties_IssuerName x) v (CertificateProperties_NotValidAfter x) (CertificateProperties_SignatureAlgorithmRef x) (CertificateProperties_SubjectPublicKeyRef x) (CertificateProperties_CertificateFormat x) (CertificateProperties_CertificateExtension x) (CertificateProperties_CertificateFileExtension x) (CertificateProperties_Fingerprint x) (CertificateProperties_CertificateState x) (CertificateProperties_CertificateExtensions x) (CertificateProperties_RelatedCryptographicAssets x) (CertificateProperties_CreationDate x) (CertificateProperties_ActivationDate x) (CertificateProperties_DeactivationDate x) (CertificateProperties_RevocationDate x) (CertificateProperties_DestructionDate x).
Definition set_CertificateProperties_NotValidAfter (v : string) (x : CertificateProperties) : CertificateProperties :=
  mkCertificateProperties (CertificateProperties_SerialNumber x) (CertificateProperties_SubjectName x) (CertificateProperties_IssuerName x) (CertificateProperties_NotValidBefore x) v (CertificateProperties_SignatureAlgorithmRef x) (CertificateProperties_SubjectPublicKeyRef x) (CertificateProperties_CertificateFormat x) (CertificateProperties_CertificateExtension x) (CertificateProperties_CertificateFileExtension x) (CertificateProperties_Fingerprint x) (CertificateProperties_CertificateState x) (CertificateProperties_CertificateExtensions x) (CertificateProperties_RelatedCryptographicAssets x) (CertificateProperties_CreationDate x) (CertificateProperties_ActivationDate x) (CertificateProperties_DeactivationDate x) (CertificateProperties_RevocationDate x) (CertificateProperties_DestructionDate x).
Definition set_CertificateProperties_SignatureAlgorithmRef (v : BOMReference) (x : CertificateProperties) : CertificateProperties :=
  mkCertificateProperties (CertificateProperties_SerialNumber x) (CertificateProperties_SubjectName x) (CertificateProperties_IssuerName x) (CertificateProperties_NotValidBefore x) (CertificateProperties_NotValidAfter x) v (CertificateProperties_SubjectPublicKeyRef x) (CertificateProperties_CertificateFormat x) (CertificateProperties_CertificateExtension x) (CertificateProperties_CertificateFileExtension x) (CertificateProperties_Fingerprint x) (CertificateProperties_CertificateState x) (CertificateProperties_CertificateExtensions x) (CertificateProperties_RelatedCryptographicAssets x) (CertificateProperties_CreationDate x) (CertificateProperties_ActivationDate x) (CertificateProperties_DeactivationDate x) (CertificateProperties_RevocationDate x) (CertificateProperties_DestructionDate x).
Definition set_CertificateProperties_SubjectPublicKeyRef (v : BOMReference) (x : CertificateProperties) : CertificateProperties :=
  mkCertificateProperties (CertificateProperties_SerialNumber x) (CertificateProperties_SubjectName x) (CertificateProperties_IssuerName x) (CertificateProperties_NotValidBefore x) (CertificateProperties_NotValidAfter x) (CertificateProperties_SignatureAlgorithmRef x) v (CertificateProperties_CertificateFormat x) (CertificateProperties_CertificateExtension x) (CertificateProperties_CertificateFileExtension x) (CertificateProperties_Fingerprint x) (CertificateProperties_CertificateState x) (CertificateProperties_CertificateExtensions x) (CertificateProperties_RelatedCryptographicAssets x) (CertificateProperties_CreationDate x) (CertificateProperties_ActivationDate x) (CertificateProperties_DeactivationDate x) (CertificateProperties_RevocationDate x) (CertificateProperties_DestructionDate x).
Definition set_CertificateProperties_CertificateFormat (v : string) (x : CertificateProperties) : CertificateProperties :=
  mkCertificateProperties (CertificateProperties_SerialNumber x) (CertificateProperties_SubjectName x) (CertificateProperties_IssuerName x) (CertificateProperties_NotValidBefore x) (CertificateProperties_NotValidAfter x) (CertificateProperties_SignatureAlgorithmRef x) (CertificateProperties_SubjectPublicKeyRef x) v (CertificateProperties_CertificateExtension x) (CertificateProperties_CertificateFileExtension x) (CertificateProperties_Fingerprint x) (CertificateProperties_CertificateState x) (CertificateProperties_CertificateExtensions x) (CertificateProperties_RelatedCryptographicAssets x) (CertificateProperties_CreationDate x) (CertificateProperties_ActivationDate x) (CertificateProperties_DeactivationDate x) (CertificateProperties_RevocationDate x) (CertificateProperties_DestructionDate x).
Definition set_CertificateProperties_CertificateExtension (v : string) (x : CertificateProperties) : CertificateProperties :=
  mkCertificateProperties (CertificateProperties_SerialNumber x) (CertificateProperties_SubjectName x) (CertificateProperties_IssuerName x) (CertificateProperties_NotValidBefore x) (CertificateProperties_NotValidAfter x) (CertificateProperties_SignatureAlgorithmRef x) (CertificateProperties_SubjectPublicKeyRef x) (CertificateProperties_CertificateFormat x) v (CertificateProperties_CertificateFileExtension x) (CertificateProperties_Fingerprint x) (CertificateProperties_CertificateState x) (CertificateProperties_CertificateExtensions x) (CertificateProperties_RelatedCryptographicAssets x) (CertificateProperties_CreationDate x) (CertificateProperties_ActivationDate x) (CertificateProperties_DeactivationDate x) (CertificateProperties_RevocationDate x) (CertificateProperties_DestructionDate x).
Definition set_CertificateProperties_CertificateFileExtension (v : string) (x : CertificateProperties) : CertificateProperties :=
  mkCertificateProperties (CertificateProperties_SerialNumber x) (CertificateProperties_SubjectName x) (CertificateProperties_IssuerName x) (CertificateProperties_NotValidBefore x) (CertificateProperties_NotValidAfter x) (CertificateProperties_SignatureAlgorithmRef x) (CertificateProperties_SubjectPublicKeyRef x) (CertificateProperties_CertificateFormat x) (CertificateProperties_CertificateExtension x) v (CertificateProperties_Fingerprint x) (CertificateProperties_CertificateState x) (CertificateProperties_CertificateExtensions x) (CertificateProperties_RelatedCryptographicAssets x) (CertificateProperties_CreationDate x) (CertificateProperties_ActivationDate x) (CertificateProperties_DeactivationDate x) (CertificateProperties_RevocationDate x) (CertificateProperties_DestructionDate x).
Definition set_CertificateProperties_Fingerprint (v : ptr (Hash)) (x : CertificateProperties) : CertificateProperties :=
  mkCertificateProperties (CertificateProperties_SerialNumber x) (CertificateProperties_SubjectName x) (CertificateProperties_IssuerName x) (CertificateProperties_NotValidBefore x) (CertificateProperties_NotValidAfter x) (CertificateProperties_SignatureAlgorithmRef x) (CertificateProperties_SubjectPublicKeyRef x) (CertificateProperties_CertificateFormat x) (CertificateProperties_CertificateExtension x) (CertificateProperties_CertificateFileExtension x) v (CertificateProperties_CertificateState x) (CertificateProperties_CertificateExtensions x) (CertificateProperties_RelatedCryptographicAssets x) (CertificateProperties_CreationDate x) (CertificateProperties_ActivationDate x) (CertificateProperties_DeactivationDate x) (CertificateProperties_RevocationDate x) (CertificateProperties_DestructionDate x).
Definition set_CertificateProperties_CertificateState (v : ptr (slice (CertificateState))) (x : CertificateProperties) : CertificateProperties :=
  mkCertificateProperties (CertificateProperties_SerialNumber x) (CertificateProperties_SubjectName x) (CertificateProperties_IssuerName x) (CertificateProperties_NotValidBefore x) (CertificateProperties_NotValidAfter x) (CertificateProperties_SignatureAlgorithmRef x) (CertificateProperties_SubjectPublicKeyRef x) (CertificateProperties_CertificateFormat x) (CertificateProperties_CertificateExtension x) (CertificateProperties_CertificateFileExtension x) (CertificateProperties_Fingerprint x) v (CertificateProperties_CertificateExtensions x) (CertificateProperties_RelatedCryptographicAssets x) (CertificateProperties_CreationDate x) (CertificateProperties_ActivationDate x) (CertificateProperties_DeactivationDate x) (CertificateProperties_RevocationDate x) (CertificateProperties_DestructionDate x).
Definition set_CertificateProperties_CertificateExtensions (v : ptr (slice (CertificateExtension))) (x : CertificateProperties) : CertificateProperties :=
  mkCertificateProperties (CertificateProperties_SerialNumber x) (CertificateProperties_SubjectName x) (CertificateProperties_IssuerName x) (CertificateProperties_NotValidBefore x) (CertificateProperties_NotValidAfter x) (CertificateProperties_SignatureAlgorithmRef x) (CertificateProperties_SubjectPublicKeyRef x) (CertificateProperties_CertificateFormat x) (CertificateProperties_CertificateExtension x) (CertificateProperties_CertificateFileExtension x) (CertificateProperties_Fingerprint x) (CertificateProperties_CertificateState x) v (CertificateProperties_RelatedCryptographicAssets x) (CertificateProperties_CreationDate x) (CertificateProperties_ActivationDate x) (CertificateProperties_DeactivationDate x) (CertificateProperties_RevocationDate x) (CertificateProperties_DestructionDate x).
Definition set_CertificateProperties_RelatedCryptographicAssets (v : ptr (slice (RelatedCryptographicAsset))) (x : CertificateProperties) : CertificateProperties :=
  mkCertificateProperties (CertificateProperties_SerialNumber x) (CertificateProperties_SubjectName x) (CertificateProperties_IssuerName x) (CertificateProperties_NotValidBefore x) (CertificateProperties_NotValidAfter x) (CertificateProperties_SignatureAlgorithmRef x) (CertificateProperties_SubjectPublicKeyRef x) (CertificateProperties_CertificateFormat x) (CertificateProperties_CertificateExtension x) (CertificateProperties_CertificateFileExtension x) (CertificateProperties_Fingerprint x) (CertificateProperties_CertificateState x) (CertificateProperties_CertificateExtensions x) v (CertificateProperties_CreationDate x) (CertificateProperties_ActivationDate x) (CertificateProperties_DeactivationDate x) (CertificateProperties_RevocationDate x) (CertificateProperties_DestructionDate x).
Definition set_CertificateProperties_CreationDate (v : string) (x : CertificateProperties) : CertificateProperties :=
  mkCertificateProperties (CertificateProperties_SerialNumber x) (CertificateProperties_SubjectName x) (CertificateProperties_IssuerName x) (CertificateProperties_NotValidBefore x) (CertificateProperties_NotValidAfter x) (CertificateProperties_SignatureAlgorithmRef x) (CertificateProperties_SubjectPublicKeyRef x) (CertificateProperties_CertificateFormat x) (CertificateProperties_CertificateExtension x) (CertificateProperties_CertificateFileExtension x) (CertificateProperties_Fingerprint x) (CertificateProperties_CertificateState x) (CertificateProperties_CertificateExtensions x) (CertificateProperties_RelatedCryptographicAssets x) v (CertificateProperties_ActivationDate x) (CertificateProperties_DeactivationDate x) (CertificateProperties_RevocationDate x) (CertificateProperties_DestructionDate x).
Definition set_CertificateProperties_ActivationDate (v : string) (x : CertificateProperties) : CertificateProperties :=
  mkCertificateProperties (CertificateProperties_SerialNumber x) (CertificateProperties_SubjectName x) (CertificateProperties_IssuerName x) (CertificateProperties_NotValidBefore x) (CertificateProperties_NotValidAfter x) (CertificateProperties_SignatureAlgorithmRef x) (CertificateProperties_SubjectPublicKeyRef x) (CertificateProperties_CertificateFormat x) (CertificateProperties_CertificateExtension x) (CertificateProperties_CertificateFileExtension x) (CertificateProperties_Fingerprint x) (CertificateProperties_CertificateState x) (CertificateProperties_CertificateExtensions x) (CertificateProperties_RelatedCryptographicAssets x) (CertificateProperties_CreationDate x) v (CertificateProperties_DeactivationDate x) (CertificateProperties_RevocationDate x) (CertificateProperties_DestructionDate x).
Definition set_CertificateProperties_DeactivationDate (v : string) (x : CertificateProperties) : CertificateProperties :=
  mkCertificateProperties (CertificateProperties_SerialNumber x) (CertificateProperties_SubjectName x) (CertificateProperties_IssuerName x) (CertificateProperties_NotValidBefore x) (CertificateProperties_NotValidAfter x) (CertificateProperties_SignatureAlgorithmRef x) (CertificateProperties_SubjectPublicKeyRef x) (CertificateProperties_CertificateFormat x) (CertificateProperties_CertificateExtension x) (CertificateProperties_CertificateFileExtension x) (CertificateProperties_Fingerprint x) (CertificateProperties_CertificateState x) (CertificateProperties_CertificateExtensions x) (CertificateProperties_RelatedCryptographicAssets x) (CertificateProperties_CreationDate x) (CertificateProperties_ActivationDate x) v (CertificateProperties_RevocationDate x) (CertificateProperties_DestructionDate x).
Definition set_CertificateProperties_RevocationDate (v : string) (x : CertificateProperties) : CertificateProperties :=
  mkCertificateProperties (CertificateProperties_SerialNumber x) (CertificateProperties_SubjectName x) (CertificateProperties_IssuerName x) (CertificateProperties_NotValidBefore x) (CertificateProperties_NotValidAfter x) (CertificateProperties_SignatureAlgorithmRef x) (CertificateProperties_SubjectPublicKeyRef x) (CertificateProperties_CertificateFormat x) (CertificateProperties_CertificateExtension x) (CertificateProperties_CertificateFileExtension x) (CertificateProperties_Fingerprint x) (CertificateProperties_CertificateState x) (CertificateProperties_CertificateExtensions x) (CertificateProperties_RelatedCryptographicAssets x) (CertificateProperties_CreationDate x) (CertificateProperties_ActivationDate x) (CertificateProperties_DeactivationDate x) v (CertificateProperties_DestructionDate x).
Definition set_CertificateProperties_DestructionDate (v : string) (x : CertificateProperties) : CertificateProperties :=
  mkCertificateProperties (CertificateProperties_SerialNumber x) (CertificateProperties_SubjectName x) (CertificateProperties_IssuerName x) (CertificateProperties_NotValidBefore x) (CertificateProperties_NotValidAfter x) (CertificateProperties_SignatureAlgorithmRef x) (CertificateProperties_SubjectPublicKeyRef x) (CertificateProperties_CertificateFormat x) (CertificateProperties_CertificateExtension x) (CertificateProperties_CertificateFileExtension x) (CertificateProperties_Fingerprint x) (CertificateProperties_CertificateState x) (CertificateProperties_CertificateExtensions x) (CertificateProperties_RelatedCryptographicAssets x) (CertificateProperties_CreationDate x) (CertificateProperties_ActivationDate x) (CertificateProperties_DeactivationDate x) (CertificateProperties_RevocationDate x) v.
Definition over_CertificateProperties_SerialNumber (f : string -> string) (x : CertificateProperties) : CertificateProperties := set_CertificateProperties_SerialNumber (f (CertificateProperties_SerialNumber x)) x.
Definition over_CertificateProperties_SubjectName (f : string -> string) (x : CertificateProperties) : CertificateProperties := set_CertificateProperties_SubjectName (f (CertificateProperties_SubjectName x)) x.
Definition over_CertificateProperties_IssuerName (f : string -> string) (x : CertificateProperties) : CertificateProperties := set_CertificateProperties_IssuerName (f (CertificateProperties_IssuerName x)) x.
Definition over_CertificateProperties_NotValidBefore (f : string -> string) (x : CertificateProperties) : CertificateProperties := set_CertificateProperties_NotValidBefore (f (CertificateProperties_NotValidBefore x)) x.
Definition over_CertificateProperties_NotValidAfter (f : string -> string) (x : CertificateProperties) : CertificateProperties := set_CertificateProperties_NotValidAfter (f (CertificateProperties_NotValidAfter x)) x.
Definition over_CertificateProperties_SignatureAlgorithmRef (f : BOMReference -> BOMReference) (x : CertificateProperties) : CertificateProperties := set_CertificateProperties_SignatureAlgorithmRef (f (CertificateProperties_SignatureAlgorithmRef x)) x.
Definition over_CertificateProperties_SubjectPublicKeyRef (f : BOMReference -> BOMReference) (x : CertificateProperties) : CertificateProperties := set_CertificateProperties_SubjectPublicKeyRef (f (CertificateProperties_SubjectPublicKeyRef x)) x.
Definition over_CertificateProperties_CertificateFormat (f : string -> string) (x : CertificateProperties) : CertificateProperties := set_CertificateProperties_CertificateFormat (f (CertificateProperties_CertificateFormat x)) x.
Definition over_CertificateProperties_CertificateExtension (f : string -> string) (x : CertificateProperties) : CertificateProperties := set_CertificateProperties_CertificateExtension (f (CertificateProperties_CertificateExtension x)) x.
Definition over_CertificateProperties_CertificateFileExtension (f : string -> string) (x : CertificateProperties) : CertificateProperties := set_CertificateProperties_CertificateFileExtension (f (CertificateProperties_CertificateFileExtension x)) x.
Definition over_CertificateProperties_Fingerprint (f : ptr (Hash) -> ptr (Hash)) (x : CertificateProperties) : CertificateProperties := set_CertificateProperties_Fingerprint (f (CertificateProperties_Fingerprint x)) x.
Definition over_CertificateProperties_CertificateState (f : ptr (slice (CertificateState)) -> ptr (slice (CertificateState))) (x : CertificateProperties) : CertificateProperties := set_CertificateProperties_CertificateState (f (CertificateProperties_CertificateState x)) x.
Definition over_CertificateProperties_CertificateExtensions (f : ptr (slice (CertificateExtension)) -> ptr (slice (CertificateExtension))) (x : CertificateProperties) : CertificateProperties := set_CertificateProperties_CertificateExtensions (f (CertificateProperties_CertificateExtensions x)) x.
Definition over_CertificateProperties_RelatedCryptographicAssets (f : ptr (slice (RelatedCryptographicAsset)) -> ptr (slice (RelatedCryptographicAsset))) (x : CertificateProperties) : CertificateProperties := set_CertificateProperties_RelatedCryptographicAssets (f (CertificateProperties_RelatedCryptographicAssets x)) x.
Definition over_CertificateProperties_CreationDate (f : string -> string) (x : CertificateProperties) : CertificateProperties := set_CertificateProperties_CreationDate (f (CertificateProperties_CreationDate x)) x.
Definition over_CertificateProperties_ActivationDate (f : string -> string) (x : CertificateProperties) : CertificateProperties := set_CertificateProperties_ActivationDate (f (CertificateProperties_ActivationDate x)) x.
Definition over_CertificateProperties_DeactivationDate (f : string -> string) (x : CertificateProperties) : CertificateProperties := set_CertificateProperties_DeactivationDate (f (CertificateProperties_DeactivationDate x)) x.
Definition over_CertificateProperties_RevocationDate (f : string -> string) (x : CertificateProperties) : CertificateProperties := set_CertificateProperties_RevocationDate (f (CertificateProperties_RevocationDate x)) x.
Definition over_CertificateProperties_DestructionDate (f : string -> string) (x : CertificateProperties) : CertificateProperties := set_CertificateProperties_DestructionDate (f (CertificateProperties_DestructionDate x)) x.
Definition zero_CertificateProperties : CertificateProperties := mkCertificateProperties ("") ("") ("") ("") ("") ("") ("") ("") ("") ("") (None) (None) (None) (None) ("") ("") ("") ("") ("").

(** /repo/cyclonedx.go:546-549 *)
Record SecuredBy := mkSecuredBy {
  SecuredBy_Mechanism : string;
  SecuredBy_AlgorithmRef : BOMReference
}.
Definition set_SecuredBy_Mechanism (v : string) (x : SecuredBy) : SecuredBy :=
  mkSecuredBy v (SecuredBy_AlgorithmRef x).
Definition set_SecuredBy_AlgorithmRef (v : BOMReference) (x : SecuredBy) : SecuredBy :=
  mkSecuredBy (SecuredBy_Mechanism x) v.
Definition over_SecuredBy_Mechanism (f : string -> string) (x : SecuredBy) : SecuredBy := set_SecuredBy_Mechanism (f (SecuredBy_Mechanism x)) x.
Definition over_SecuredBy_AlgorithmRef (f : BOMReference -> BOMReference) (x : SecuredBy) : SecuredBy := set_SecuredBy_AlgorithmRef (f (SecuredBy_AlgorithmRef x)) x.
Definition zero_SecuredBy : SecuredBy := mkSecuredBy ("") ("").

(** /repo/cyclonedx.go:1282-1297 *)
Record RelatedCryptoMaterialProperties := mkRelatedCryptoMaterialProperties {
  RelatedCryptoMaterialProperties_Type : RelatedCryptoMaterialType;
  RelatedCryptoMaterialProperties_ID : string;
  RelatedCryptoMaterialProperties_State : CryptoKeyState;
  RelatedCryptoMaterialProperties_AlgorithmRef : BOMReference;
  RelatedCryptoMaterialProperties_CreationDate : string;
  RelatedCryptoMaterialProperties_ActivationDate : string;
  RelatedCryptoMaterialProperties_UpdateDate : string;
  RelatedCryptoMaterialProperties_ExpirationDate : string;
  RelatedCryptoMaterialProperties_Value : string;
  RelatedCryptoMaterialProperties_Size : ptr (Z);
  RelatedCryptoMaterialProperties_Format : string;
  RelatedCryptoMaterialProperties_SecuredBy : ptr (SecuredBy);
  RelatedCryptoMaterialProperties_Fingerprint : ptr (Hash);
  RelatedCryptoMaterialProperties_RelatedCryptographicAssets : ptr (slice (RelatedCryptographicAsset))
}.
Definition set_RelatedCryptoMaterialProperties_Type (v : RelatedCryptoMaterialType) (x : RelatedCryptoMaterialProperties) : RelatedCryptoMaterialProperties :=
  mkRelatedCryptoMaterialProperties v (RelatedCryptoMaterialProperties_ID x) (RelatedCryptoMaterialProperties_State x) (RelatedCryptoMaterialProperties_AlgorithmRef x) (RelatedCryptoMaterialProperties_CreationDate x) (RelatedCryptoMaterialProperties_ActivationDate x) (RelatedCryptoMaterialProperties_UpdateDate x) (RelatedCryptoMaterialProperties_ExpirationDate x) (RelatedCryptoMaterialProperties_Value x) (RelatedCryptoMaterialProperties_Size x) (RelatedCryptoMaterialProperties_Format x) (RelatedCryptoMaterialProperties_SecuredBy x) (RelatedCryptoMaterialProperties_Fingerprint x) (RelatedCryptoMaterialProperties_RelatedCryptographicAssets x).
Definition set_RelatedCryptoMaterialProperties_ID (v : string) (x : RelatedCryptoMaterialProperties) : RelatedCryptoMaterialProperties :=
  mkRelatedCryptoMaterialProperties (RelatedCryptoMaterialProperties_Type x) v (RelatedCryptoMaterialProperties_State x) (RelatedCryptoMaterialProperties_AlgorithmRef x) (RelatedCryptoMaterialProperties_CreationDate x) (RelatedCryptoMaterialProperties_ActivationDate x) (RelatedCryptoMaterialProperties_UpdateDate x) (RelatedCryptoMaterialProperties_ExpirationDate x) (RelatedCryptoMaterialProperties_Value x) (RelatedCryptoMaterialProperties_Size x) (RelatedCryptoMaterialProperties_Format x) (RelatedCryptoMaterialProperties_SecuredBy x) (RelatedCryptoMaterialProperties_Fingerprint x) (RelatedCryptoMaterialProperties_RelatedCryptographicAssets x).
Definition set_RelatedCryptoMaterialProperties_State (v : CryptoKeyState) (x : RelatedCryptoMaterialProperties) : RelatedCryptoMaterialProperties :=
  mkRelatedCryptoMaterialProperties (RelatedCryptoMaterialProperties_Type x) (RelatedCryptoMaterialProperties_ID x) v (RelatedCryptoMaterialProperties_AlgorithmRef x) (RelatedCryptoMaterialProperties_CreationDate x) (RelatedCryptoMaterialProperties_ActivationDate x) (RelatedCryptoMaterialProperties_UpdateDate x) (RelatedCryptoMaterialProperties_ExpirationDate x) (RelatedCryptoMaterialProperties_Value x) (RelatedCryptoMaterialProperties_Size x) (RelatedCryptoMaterialProperties_Format x) (RelatedCryptoMaterialProperties_SecuredBy x) (RelatedCryptoMaterialProperties_Fingerprint x) (RelatedCryptoMaterialProperties_RelatedCryptographicAssets x).
Definition set_RelatedCryptoMaterialProperties_AlgorithmRef (v : BOMReference) (x : RelatedCryptoMaterialProperties) : RelatedCryptoMaterialProperties :=
  mkRelatedCryptoMaterialProperties (RelatedCryptoMaterialProperties_Type x) (RelatedCryptoMaterialProperties_ID x) (RelatedCryptoMaterialProperties_State x) v (RelatedCryptoMaterialProperties_CreationDate x) (RelatedCryptoMaterialProperties_ActivationDate x) (RelatedCryptoMaterialProperties_UpdateDate x) (RelatedCryptoMaterialProperties_ExpirationDate x) (RelatedCryptoMaterialProperties_Value x) (RelatedCryptoMaterialProperties_Size x) (RelatedCryptoMaterialProperties_Format x) (RelatedCryptoMaterialProperties_SecuredBy x) (RelatedCryptoMaterialProperties_Fingerprint x) (RelatedCryptoMaterialProperties_RelatedCryptographicAssets x).
Definition set_RelatedCryptoMaterialProperties_CreationDate (v : string) (x : RelatedCryptoMaterialProperties) : RelatedCryptoMaterialProperties :=
  mkRelatedCryptoMaterialProperties (RelatedCryptoMaterialProperties_Type x) (RelatedCryptoMaterialProperties_ID x) (RelatedCryptoMaterialProperties_State x) (RelatedCryptoMaterialProperties_AlgorithmRef x) v (RelatedCryptoMaterialProperties_ActivationDate x) (RelatedCryptoMaterialProperties_UpdateDate x) (RelatedCryptoMaterialProperties_ExpirationDate x) (RelatedCryptoMaterialProperties_Value x) (RelatedCryptoMaterialProperties_Size x) (RelatedCryptoMaterialProperties_Format x) (RelatedCryptoMaterialProperties_SecuredBy x) (RelatedCryptoMaterialProperties_Fingerprint x) (RelatedCryptoMaterialProperties_RelatedCryptographicAssets x).
Definition set_RelatedCryptoMaterialProperties_ActivationDate (v : string) (x : RelatedCryptoMaterialProperties) : RelatedCryptoMaterialProperties :=
  mkRelatedCryptoMaterialProperties (RelatedCryptoMaterialProperties_Type x) (RelatedCryptoMaterialProperties_ID x) (RelatedCryptoMaterialProperties_State x) (RelatedCryptoMaterialProperties_AlgorithmRef x) (RelatedCryptoMaterialProperties_CreationDate x) v (RelatedCryptoMaterialProperties_UpdateDate x) (RelatedCryptoMaterialProperties_ExpirationDate x) (RelatedCryptoMaterialProperties_Value x) (RelatedCryptoMaterialProperties_Size x) (RelatedCryptoMaterialProperties_Format x) (RelatedCryptoMaterialProperties_SecuredBy x) (RelatedCryptoMaterialProperties_Fingerprint x) (RelatedCryptoMaterialProperties_RelatedCryptographicAssets x).
Definition set_RelatedCryptoMaterialProperties_UpdateDate (v : string) (x : RelatedCryptoMaterialProperties) : RelatedCryptoMaterialProperties :=
  mkRelatedCryptoMaterialProperties (RelatedCryptoMaterialProperties_Type x) (RelatedCryptoMaterialProperties_ID x) (RelatedCryptoMaterialProperties_State x) (RelatedCryptoMaterialProperties_AlgorithmRef x) (RelatedCryptoMaterialProperties_CreationDate x) (RelatedCryptoMaterialProperties_ActivationDate x) v (RelatedCryptoMaterialProperties_ExpirationDate x) (RelatedCryptoMaterialProperties_Value x) (RelatedCryptoMaterialProperties_Size x) (RelatedCryptoMaterialProperties_Format x) (RelatedCryptoMaterialProperties_SecuredBy x) (RelatedCryptoMaterialProperties_Fingerprint x) (RelatedCryptoMaterialProperties_RelatedCryptographicAssets x).
Definition set_RelatedCryptoMaterialProperties_ExpirationDate (v : string) (x : RelatedCryptoMaterialProperties) : RelatedCryptoMaterialProperties :=
  mkRelatedCryptoMaterialProperties (RelatedCryptoMaterialProperties_Type x) (RelatedCryptoMaterialProperties_ID x) (RelatedCryptoMaterialProperties_State x) (RelatedCryptoMaterialProperties_AlgorithmRef x) (RelatedCryptoMaterialProperties_CreationDate x) (RelatedCryptoMaterialProperties_ActivationDate x) (RelatedCryptoMaterialProperties_UpdateDate x) v (RelatedCryptoMaterialProperties_Value x) (RelatedCryptoMaterialProperties_Size x) (RelatedCryptoMaterialProperties_Format x) (RelatedCryptoMaterialProperties_SecuredBy x) (RelatedCryptoMaterialProperties_Fingerprint x) (RelatedCryptoMaterialProperties_RelatedCryptographicAssets x).
Definition set_RelatedCryptoMaterialProperties_Value (v : string) (x : RelatedCryptoMaterialProperties) : RelatedCryptoMaterialProperties :=
  mkRelatedCryptoMaterialProperties (RelatedCryptoMaterialProperties_Type x) (RelatedCryptoMaterialProperties_ID x) (RelatedCryptoMaterialProperties_State x) (RelatedCryptoMaterialProperties_AlgorithmRef x) (RelatedCryptoMaterialProperties_CreationDate x) (RelatedCryptoMaterialProperties_ActivationDate x) (RelatedCryptoMaterialProperties_UpdateDate x) (RelatedCryptoMaterialProperties_ExpirationDate x) v (RelatedCryptoMaterialProperties_Size x) (RelatedCryptoMaterialProperties_Format x) (RelatedCryptoMaterialProperties_SecuredBy x) (RelatedCryptoMaterialProperties_Fingerprint x) (RelatedCryptoMaterialProperties_RelatedCryptographicAssets x).
Definition set_RelatedCryptoMaterialProperties_Size (v : ptr (Z)) (x : RelatedCryptoMaterialProperties) : RelatedCryptoMaterialProperties :=
  mkRelatedCryptoMaterialProperties (RelatedCryptoMaterialProperties_Type x) (RelatedCryptoMaterialProperties_ID x) (RelatedCryptoMaterialProperties_State x) (RelatedCryptoMaterialProperties_AlgorithmRef x) (RelatedCryptoMaterialProperties_CreationDate x) (RelatedCryptoMaterialProperties_ActivationDate x) (RelatedCryptoMaterialProperties_UpdateDate x) (RelatedCryptoMaterialProperties_ExpirationDate x) (RelatedCryptoMaterialProperties_Value x) v (RelatedCryptoMaterialProperties_Format x) (RelatedCryptoMaterialProperties_SecuredBy x) (RelatedCryptoMaterialProperties_Fingerprint x) (RelatedCryptoMaterialProperties_RelatedCryptographicAssets x).
Definition set_RelatedCryptoMaterialProperties_Format (v : string) (x : RelatedCryptoMaterialProperties) : RelatedCryptoMaterialProperties :=
  mkRelatedCryptoMaterialProperties (RelatedCryptoMaterialProperties_Type x) (RelatedCryptoMaterialProperties_ID x) (RelatedCryptoMaterialProperties_State x) (RelatedCryptoMaterialProperties_AlgorithmRef x) (RelatedCryptoMaterialProperties_CreationDate x) (RelatedCryptoMaterialProperties_ActivationDate x) (RelatedCryptoMaterialProperties_UpdateDate x) (RelatedCryptoMaterialProperties_ExpirationDate x) (RelatedCryptoMaterialProperties_Value x) (RelatedCryptoMaterialProperties_Size x) v (RelatedCryptoMaterialProperties_SecuredBy x) (RelatedCryptoMaterialProperties_Fingerprint x) (RelatedCryptoMaterialProperties_RelatedCryptographicAssets x).
Definition set_RelatedCryptoMaterialProperties_SecuredBy (v : ptr (SecuredBy)) (x : RelatedCryptoMaterialProperties) : RelatedCryptoMaterialProperties :=
  mkRelatedCryptoMaterialProperties (RelatedCryptoMaterialProperties_Type x) (RelatedCryptoMaterialProperties_ID x) (RelatedCryptoMaterialProperties_State x) (RelatedCryptoMaterialProperties_AlgorithmRef x) (RelatedCryptoMaterialProperties_CreationDate x) (RelatedCryptoMaterialProperties_ActivationDate x) (RelatedCryptoMaterialProperties_UpdateDate x) (RelatedCryptoMaterialProperties_ExpirationDate x) (RelatedCryptoMaterialProperties_Value x) (RelatedCryptoMaterialProperties_Size x) (RelatedCryptoMaterialProperties_Format x) v (RelatedCryptoMaterialProperties_Fingerprint x) (RelatedCryptoMaterialProperties_RelatedCryptographicAssets x).
Definition set_RelatedCryptoMaterialProperties_Fingerprint (v : ptr (Hash)) (x : RelatedCryptoMaterialProperties) : RelatedCryptoMaterialProperties :=
  mkRelatedCryptoMaterialProperties (RelatedCryptoMaterialProperties_Type x) (RelatedCryptoMaterialProperties_ID x) (RelatedCryptoMaterialProperties_State x) (RelatedCryptoMaterialProperties_AlgorithmRef x) (RelatedCryptoMaterialProperties_CreationDate x) (RelatedCryptoMaterialProperties_ActivationDate x) (RelatedCryptoMaterialProperties_UpdateDate x) (RelatedCryptoMaterialProperties_ExpirationDate x) (RelatedCryptoMaterialProperties_Value x) (RelatedCryptoMaterialProperties_Size x) (RelatedCryptoMaterialProperties_Format x) (RelatedCryptoMaterialProperties_SecuredBy x) v (RelatedCryptoMaterialProperties_RelatedCryptographicAssets x).
Definition set_RelatedCryptoMaterialProperties_RelatedCryptographicAssets (v : ptr (slice (RelatedCryptographicAsset))) (x : RelatedCryptoMaterialProperties) : RelatedCryptoMaterialProperties :=
  mkRelatedCryptoMaterialProperties (RelatedCryptoMaterialProperties_Type x) (RelatedCryptoMaterialProperties_ID x) (RelatedCryptoMaterialProperties_State x) (RelatedCryptoMaterialProperties_AlgorithmRef x) (RelatedCryptoMaterialProperties_CreationDate x) (RelatedCryptoMaterialProperties_ActivationDate x) (RelatedCryptoMaterialProperties_UpdateDate x) (RelatedCryptoMaterialProperties_ExpirationDate x) (RelatedCryptoMaterialProperties_Value x) (RelatedCryptoMaterialProperties_Size x) (RelatedCryptoMaterialProperties_Format x) (RelatedCryptoMaterialProperties_SecuredBy x) (RelatedCryptoMaterialProperties_Fingerprint x) v.
Definition over_RelatedCryptoMaterialProperties_Type (f : RelatedCryptoMaterialType -> RelatedCryptoMaterialType) (x : RelatedCryptoMaterialProperties) : RelatedCryptoMaterialProperties := set_RelatedCryptoMaterialProperties_Type (f (RelatedCryptoMaterialProperties_Type x)) x.
Definition over_RelatedCryptoMaterialProperties_ID (f : string -> string) (x : RelatedCryptoMaterialProperties) : RelatedCryptoMaterialProperties := set_RelatedCryptoMaterialProperties_ID (f (RelatedCryptoMaterialProperties_ID x)) x.
Definition over_RelatedCryptoMaterialProperties_State (f : CryptoKeyState -> CryptoKeyState) (x : RelatedCryptoMaterialProperties) : RelatedCryptoMaterialProperties := set_RelatedCryptoMaterialProperties_State (f (RelatedCryptoMaterialProperties_State x)) x.
Definition over_RelatedCryptoMaterialProperties_AlgorithmRef (f : BOMReference -> BOMReference) (x : RelatedCryptoMaterialProperties) : RelatedCryptoMaterialProperties := set_RelatedCryptoMaterialProperties_AlgorithmRef (f (RelatedCryptoMaterialProperties_AlgorithmRef x)) x.
Definition over_RelatedCryptoMaterialProperties_CreationDate (f : string -> string) (x : RelatedCryptoMaterialProperties) : RelatedCryptoMaterialProperties := set_RelatedCryptoMaterialProperties_CreationDate (f (RelatedCryptoMaterialProperties_CreationDate x)) x.
Definition over_RelatedCryptoMaterialProperties_ActivationDate (f : string -> string) (x : RelatedCryptoMaterialProperties) : RelatedCryptoMaterialProperties := set_RelatedCryptoMaterialProperties_ActivationDate (f (RelatedCryptoMaterialProperties_ActivationDate x)) x.
Definition over_RelatedCryptoMaterialProperties_UpdateDate (f : string -> string) (x : RelatedCryptoMaterialProperties) : RelatedCryptoMaterialProperties := set_RelatedCryptoMaterialProperties_UpdateDate (f (RelatedCryptoMaterialProperties_UpdateDate x)) x.
Definition over_RelatedCryptoMaterialProperties_ExpirationDate (f : string -> string) (x : RelatedCryptoMaterialProperties) : RelatedCryptoMaterialProperties := set_RelatedCryptoMaterialProperties_ExpirationDate (f (RelatedCryptoMaterialProperties_ExpirationDate x)) x.
Definition over_RelatedCryptoMaterialProperties_Value (f : string -> string) (x : RelatedCryptoMaterialProperties) : RelatedCryptoMaterialProperties := set_RelatedCryptoMaterialProperties_Value (f (RelatedCryptoMaterialProperties_Value x)) x.
Definition over_RelatedCryptoMaterialProperties_Size (f : ptr (Z) -> ptr (Z)) (x : RelatedCryptoMaterialProperties) : RelatedCryptoMaterialProperties := set_RelatedCryptoMaterialProperties_Size (f (RelatedCryptoMaterialProperties_Size x)) x.
Definition over_RelatedCryptoMaterialProperties_Format (f : string -> string) (x : RelatedCryptoMaterialProperties) : RelatedCryptoMaterialProperties := set_RelatedCryptoMaterialProperties_Format (f (RelatedCryptoMaterialProperties_Format x)) x.
Definition over_RelatedCryptoMaterialProperties_SecuredBy (f : ptr (SecuredBy) -> ptr (SecuredBy)) (x : RelatedCryptoMaterialProperties) : RelatedCryptoMaterialProperties := set_RelatedCryptoMaterialProperties_SecuredBy (f (RelatedCryptoMaterialProperties_SecuredBy x)) x.
Definition over_RelatedCryptoMaterialProperties_Fingerprint (f : ptr (Hash) -> ptr (Hash)) (x : RelatedCryptoMaterialProperties) : RelatedCryptoMaterialProperties := set_RelatedCryptoMaterialProperties_Fingerprint (f (RelatedCryptoMaterialProperties_Fingerprint x)) x.
Definition over_RelatedCryptoMaterialProperties_RelatedCryptographicAssets (f : ptr (slice (RelatedCryptographicAsset)) -> ptr (slice (RelatedCryptographicAsset))) (x : RelatedCryptoMaterialProperties) : RelatedCryptoMaterialProperties := set_RelatedCryptoMaterialProperties_RelatedCryptographicAssets (f (RelatedCryptoMaterialProperties_RelatedCryptographicAssets x)) x.
Definition zero_RelatedCryptoMaterialProperties : RelatedCryptoMaterialProperties := mkRelatedCryptoMaterialProperties ("") ("") ("") ("") ("") ("") ("") ("") ("") (None) ("") (None) (None) (None).

(** /repo/cyclonedx.go:205-211 *)
Record CipherSuite := mkCipherSuite {
  CipherSuite_Name : string;
  CipherSuite_Algorithms : ptr (slice (BOMReference));
  CipherSuite_Identifiers : ptr (slice (string));
  CipherSuite_TLSGroups : ptr (slice (string));
  CipherSuite_TLSSignatureSchemes : ptr (slice (string))
}.
Definition set_CipherSuite_Name (v : string) (x : CipherSuite) : CipherSuite :=
  mkCipherSuite v (CipherSuite_Algorithms x) (CipherSuite_Identifiers x) (CipherSuite_TLSGroups x) (CipherSuite_TLSSignatureSchemes x).
Definition set_CipherSuite_Algorithms (v : ptr (slice (BOMReference))) (x : CipherSuite) : CipherSuite :=
  mkCipherSuite (CipherSuite_Name x) v (CipherSuite_Identifiers x) (CipherSuite_TLSGroups x) (CipherSuite_TLSSignatureSchemes x).
Definition set_CipherSuite_Identifiers (v : ptr (slice (string))) (x : CipherSuite) : CipherSuite :=
  mkCipherSuite (CipherSuite_Name x) (CipherSuite_Algorithms x) v (CipherSuite_TLSGroups x) (CipherSuite_TLSSignatureSchemes x).
Definition set_CipherSuite_TLSGroups (v : ptr (slice (string))) (x : CipherSuite) : CipherSuite :=
  mkCipherSuite (CipherSuite_Name x) (CipherSuite_Algorithms x) (CipherSuite_Identifiers x) v (CipherSuite_TLSSignatureSchemes x).
Definition set_CipherSuite_TLSSignatureSchemes (v : ptr (slice (string))) (x : CipherSuite) : CipherSuite :=
  mkCipherSuite (CipherSuite_Name x) (CipherSuite_Algorithms x) (CipherSuite_Identifiers x) (CipherSuite_TLSGroups x) v.
Definition over_CipherSuite_Name (f : string -> string) (x : CipherSuite) : CipherSuite := set_CipherSuite_Name (f (CipherSuite_Name x)) x.
Definition over_CipherSuite_Algorithms (f : ptr (slice (BOMReference)) -> ptr (slice (BOMReference))) (x : CipherSuite) : CipherSuite := set_CipherSuite_Algorithms (f (CipherSuite_Algorithms x)) x.
Definition over_CipherSuite_Identifiers (f : ptr (slice (string)) -> ptr (slice (string))) (x : CipherSuite) : CipherSuite := set_CipherSuite_Identifiers (f (CipherSuite_Identifiers x)) x.
Definition over_CipherSuite_TLSGroups (f : ptr (slice (string)) -> ptr (slice (string))) (x : CipherSuite) : CipherSuite := set_CipherSuite_TLSGroups (f (CipherSuite_TLSGroups x)) x.
Definition over_CipherSuite_TLSSignatureSchemes (f : ptr (slice (string)) -> ptr (slice (string))) (x : CipherSuite) : CipherSuite := set_CipherSuite_TLSSignatureSchemes (f (CipherSuite_TLSSignatureSchemes x)) x.
Definition zero_CipherSuite : CipherSuite := mkCipherSuite ("") (None) (None) (None) (None).

(** /repo/cyclonedx.go:1834-1839 *)
Record IKEv2Enc := mkIKEv2Enc {
  IKEv2Enc_BOMRef : BOMReference;
  IKEv2Enc_Name : string;
  IKEv2Enc_KeyLength : ptr (Z);
  IKEv2Enc_Algorithm : string
}.
Definition set_IKEv2Enc_BOMRef (v : BOMReference) (x : IKEv2Enc) : IKEv2Enc :=
  mkIKEv2Enc v (IKEv2Enc_Name x) (IKEv2Enc_KeyLength x) (IKEv2Enc_Algorithm x).
Definition set_IKEv2Enc_Name (v : string) (x : IKEv2Enc) : IKEv2Enc :=
  mkIKEv2Enc (IKEv2Enc_BOMRef x) v (IKEv2Enc_KeyLength x) (IKEv2Enc_Algorithm x).
Definition set_IKEv2Enc_KeyLength (v : ptr (Z)) (x : IKEv2Enc) : IKEv2Enc :=
  mkIKEv2Enc (IKEv2Enc_BOMRef x) (IKEv2Enc_Name x) v (IKEv2Enc_Algorithm x).
Definition set_IKEv2Enc_Algorithm (v : string) (x : IKEv2Enc) : IKEv2Enc :=
  mkIKEv2Enc (IKEv2Enc_BOMRef x) (IKEv2Enc_Name x) (IKEv2Enc_KeyLength x) v.
Definition over_IKEv2Enc_BOMRef (f : BOMReference -> BOMReference) (x : IKEv2Enc) : IKEv2Enc := set_IKEv2Enc_BOMRef (f (IKEv2Enc_BOMRef x)) x.
Definition over_IKEv2Enc_Name (f : string -> string) (x : IKEv2Enc) : IKEv2Enc := set_IKEv2Enc_Name (f (IKEv2Enc_Name x)) x.
Definition over_IKEv2Enc_KeyLength (f : ptr (Z) -> ptr (Z)) (x : IKEv2Enc) : IKEv2Enc := set_IKEv2Enc_KeyLength (f (IKEv2Enc_KeyLength x)) x.
Definition over_IKEv2Enc_Algorithm (f : string -> string) (x : IKEv2Enc) : IKEv2Enc := set_IKEv2Enc_Algorithm (f (IKEv2Enc_Algorithm x)) x.
Definition zero_IKEv2Enc : IKEv2Enc := mkIKEv2Enc ("") ("") (None) ("").

(** /repo/cyclonedx.go:1859-1863 *)
Record IKEv2Prf := mkIKEv2Prf {
  IKEv2Prf_BOMRef : BOMReference;
  IKEv2Prf_Name : string;
  IKEv2Prf_Algorithm : string
}.
Definition set_IKEv2Prf_BOMRef (v : BOMReference) (x : IKEv2Prf) : IKEv2Prf :=
  mkIKEv2Prf v (IKEv2Prf_Name x) (IKEv2Prf_Algorithm x).
Definition set_IKEv2Prf_Name (v : string) (x : IKEv2Prf) : IKEv2Prf :=
  mkIKEv2Prf (IKEv2Prf_BOMRef x) v (IKEv2Prf_Algorithm x).
Definition set_IKEv2Prf_Algorithm (v : string) (x : IKEv2Prf) : IKEv2Prf :=
  mkIKEv2Prf (IKEv2Prf_BOMRef x) (IKEv2Prf_Name x) v.
Definition over_IKEv2Prf_BOMRef (f : BOMReference -> BOMReference) (x : IKEv2Prf) : IKEv2Prf := set_IKEv2Prf_BOMRef (f (IKEv2Prf_BOMRef x)) x.
Definition over_IKEv2Prf_Name (f : string -> string) (x : IKEv2Prf) : IKEv2Prf := set_IKEv2Prf_Name (f (IKEv2Prf_Name x)) x.
Definition over_IKEv2Prf_Algorithm (f : string -> string) (x : IKEv2Prf) : IKEv2Prf := set_IKEv2Prf_Algorithm (f (IKEv2Prf_Algorithm x)) x.
Definition zero_IKEv2Prf : IKEv2Prf := mkIKEv2Prf ("") ("") ("").

(** /repo/cyclonedx.go:1843-1847 *)
Record IKEv2Integ := mkIKEv2Integ {
  IKEv2Integ_BOMRef : BOMReference;
  IKEv2Integ_Name : string;
  IKEv2Integ_Algorithm : string
}.
Definition set_IKEv2Integ_BOMRef (v : BOMReference) (x : IKEv2Integ) : IKEv2Integ :=
  mkIKEv2Integ v (IKEv2Integ_Name x) (IKEv2Integ_Algorithm x).
Definition set_IKEv2Integ_Name (v : string) (x : IKEv2Integ) : IKEv2Integ :=
  mkIKEv2Integ (IKEv2Integ_BOMRef x) v (IKEv2Integ_Algorithm x).
Definition set_IKEv2Integ_Algorithm (v : string) (x : IKEv2Integ) : IKEv2Integ :=
  mkIKEv2Integ (IKEv2Integ_BOMRef x) (IKEv2Integ_Name x) v.
Definition over_IKEv2Integ_BOMRef (f : BOMReference -> BOMReference) (x : IKEv2Integ) : IKEv2Integ := set_IKEv2Integ_BOMRef (f (IKEv2Integ_BOMRef x)) x.
Definition over_IKEv2Integ_Name (f : string -> string) (x : IKEv2Integ) : IKEv2Integ := set_IKEv2Integ_Name (f (IKEv2Integ_Name x)) x.
Definition over_IKEv2Integ_Algorithm (f : string -> string) (x : IKEv2Integ) : IKEv2Integ := set_IKEv2Integ_Algorithm (f (IKEv2Integ_Algorithm x)) x.
Definition zero_IKEv2Integ : IKEv2Integ := mkIKEv2Integ ("") ("") ("").

(** /repo/cyclonedx.go:1851-1855 *)
Record IKEv2Ke := mkIKEv2Ke {
  IKEv2Ke_BOMRef : BOMReference;
  IKEv2Ke_Group : ptr (Z);
  IKEv2Ke_Algorithm : string
}.
Definition set_IKEv2Ke_BOMRef (v : BOMReference) (x : IKEv2Ke) : IKEv2Ke :=
  mkIKEv2Ke v (IKEv2Ke_Group x) (IKEv2Ke_Algorithm x).
Definition set_IKEv2Ke_Group (v : ptr (Z)) (x : IKEv2Ke) : IKEv2Ke :=
  mkIKEv2Ke (IKEv2Ke_BOMRef x) v (IKEv2Ke_Algorithm x).
Definition set_IKEv2Ke_Algorithm (v : string) (x : IKEv2Ke) : IKEv2Ke :=
  mkIKEv2Ke (IKEv2Ke_BOMRef x) (IKEv2Ke_Group x) v.
Definition over_IKEv2Ke_BOMRef (f : BOMReference -> BOMReference) (x : IKEv2Ke) : IKEv2Ke := set_IKEv2Ke_BOMRef (f (IKEv2Ke_BOMRef x)) x.
Definition over_IKEv2Ke_Group (f : ptr (Z) -> ptr (Z)) (x : IKEv2Ke) : IKEv2Ke := set_IKEv2Ke_Group (f (IKEv2Ke_Group x)) x.
Definition over_IKEv2Ke_Algorithm (f : string -> string) (x : IKEv2Ke) : IKEv2Ke := set_IKEv2Ke_Algorithm (f (IKEv2Ke_Algorithm x)) x.
Definition zero_IKEv2Ke : IKEv2Ke := mkIKEv2Ke ("") (None) ("").

(** /repo/cyclonedx.go:1826-1830 *)
Record IKEv2Auth := mkIKEv2Auth {
  IKEv2Auth_BOMRef : BOMReference;
  IKEv2Auth_Name : string;
  IKEv2Auth_Algorithm : string
}.
Definition set_IKEv2Auth_BOMRef (v : BOMReference) (x : IKEv2Auth) : IKEv2Auth :=
  mkIKEv2Auth v (IKEv2Auth_Name x) (IKEv2Auth_Algorithm x).
Definition set_IKEv2Auth_Name (v : string) (x : IKEv2Auth) : IKEv2Auth :=
  mkIKEv2Auth (IKEv2Auth_BOMRef x) v (IKEv2Auth_Algorithm x).
Definition set_IKEv2Auth_Algorithm (v : string) (x : IKEv2Auth) : IKEv2Auth :=
  mkIKEv2Auth (IKEv2Auth_BOMRef x) (IKEv2Auth_Name x) v.
Definition over_IKEv2Auth_BOMRef (f : BOMReference -> BOMReference) (x : IKEv2Auth) : IKEv2Auth := set_IKEv2Auth_BOMRef (f (IKEv2Auth_BOMRef x)) x.
Definition over_IKEv2Auth_Name (f : string -> string) (x : IKEv2Auth) : IKEv2Auth := set_IKEv2Auth_Name (f (IKEv2Auth_Name x)) x.
Definition over_IKEv2Auth_Algorithm (f : string -> string) (x : IKEv2Auth) : IKEv2Auth := set_IKEv2Auth_Algorithm (f (IKEv2Auth_Algorithm x)) x.
Definition zero_IKEv2Auth : IKEv2Auth := mkIKEv2Auth ("") ("") ("").

(** /repo/cyclonedx.go:537-544 *)
Record IKEv2TransformTypes := mkIKEv2TransformTypes {
  IKEv2TransformTypes_Encr : ptr (slice (IKEv2Enc));
  IKEv2TransformTypes_PRF : ptr (slice (IKEv2Prf));
  IKEv2TransformTypes_Integ : ptr (slice (IKEv2Integ));
  IKEv2TransformTypes_KE : ptr (slice (IKEv2Ke));
  IKEv2TransformTypes_ESN : bool;
  IKEv2TransformTypes_Auth : ptr (slice (IKEv2Auth))
}.
Definition set_IKEv2TransformTypes_Encr (v : ptr (slice (IKEv2Enc))) (x : IKEv2TransformTypes) : IKEv2TransformTypes :=
  mkIKEv2TransformTypes v (IKEv2TransformTypes_PRF x) (IKEv2TransformTypes_Integ x) (IKEv2TransformTypes_KE x) (IKEv2TransformTypes_ESN x) (IKEv2TransformTypes_Auth x).
Definition set_IKEv2TransformTypes_PRF (v : ptr (slice (IKEv2Prf))) (x : IKEv2TransformTypes) : IKEv2TransformTypes :=
  mkIKEv2TransformTypes (IKEv2TransformTypes_Encr x) v (IKEv2TransformTypes_Integ x) (IKEv2TransformTypes_KE x) (IKEv2TransformTypes_ESN x) (IKEv2TransformTypes_Auth x).
Definition set_IKEv2TransformTypes_Integ (v : ptr (slice (IKEv2Integ))) (x : IKEv2TransformTypes) : IKEv2TransformTypes :=
  mkIKEv2TransformTypes (IKEv2TransformTypes_Encr x) (IKEv2TransformTypes_PRF x) v (IKEv2TransformTypes_KE x) (IKEv2TransformTypes_ESN x) (IKEv2TransformTypes_Auth x).
Definition set_IKEv2TransformTypes_KE (v : ptr (slice (IKEv2Ke))) (x : IKEv2TransformTypes) : IKEv2TransformTypes :=
  mkIKEv2TransformTypes (IKEv2TransformTypes_Encr x) (IKEv2TransformTypes_PRF x) (IKEv2TransformTypes_Integ x) v (IKEv2TransformTypes_ESN x) (IKEv2TransformTypes_Auth x).
Definition set_IKEv2TransformTypes_ESN (v : bool) (x : IKEv2TransformTypes) : IKEv2TransformTypes :=
  mkIKEv2TransformTypes (IKEv2TransformTypes_Encr x) (IKEv2TransformTypes_PRF x) (IKEv2TransformTypes_Integ x) (IKEv2TransformTypes_KE x) v (IKEv2TransformTypes_Auth x).
Definition set_IKEv2TransformTypes_Auth (v : ptr (slice (IKEv2Auth))) (x : IKEv2TransformTypes) : IKEv2TransformTypes :=
  mkIKEv2TransformTypes (IKEv2TransformTypes_Encr x) (IKEv2TransformTypes_PRF x) (IKEv2TransformTypes_Integ x) (IKEv2TransformTypes_KE x) (IKEv2TransformTypes_ESN x) v.
Definition over_IKEv2TransformTypes_Encr (f : ptr (slice (IKEv2Enc)) -> ptr (slice (IKEv2Enc))) (x : IKEv2TransformTypes) : IKEv2TransformTypes := set_IKEv2TransformTypes_Encr (f (IKEv2TransformTypes_Encr x)) x.
Definition over_IKEv2TransformTypes_PRF (f : ptr (slice (IKEv2Prf)) -> ptr (slice (IKEv2Prf))) (x : IKEv2TransformTypes) : IKEv2TransformTypes := set_IKEv2TransformTypes_PRF (f (IKEv2TransformTypes_PRF x)) x.
Definition over_IKEv2TransformTypes_Integ (f : ptr (slice (IKEv2Integ)) -> ptr (slice (IKEv2Integ))) (x : IKEv2TransformTypes) : IKEv2TransformTypes := set_IKEv2TransformTypes_Integ (f (IKEv2TransformTypes_Integ x)) x.
Definition over_IKEv2TransformTypes_KE (f : ptr (slice (IKEv2Ke)) -> ptr (slice (IKEv2Ke))) (x : IKEv2TransformTypes) : IKEv2TransformTypes := set_IKEv2TransformTypes_KE (f (IKEv2TransformTypes_KE x)) x.
Definition over_IKEv2TransformTypes_ESN (f : bool -> bool) (x : IKEv2TransformTypes) : IKEv2TransformTypes := set_IKEv2TransformTypes_ESN (f (IKEv2TransformTypes_ESN x)) x.
Definition over_IKEv2TransformTypes_Auth (f : ptr (slice (IKEv2Auth)) -> ptr (slice (IKEv2Auth))) (x : IKEv2TransformTypes) : IKEv2TransformTypes := set_IKEv2TransformTypes_Auth (f (IKEv2TransformTypes_Auth x)) x.
Definition zero_IKEv2TransformTypes : IKEv2TransformTypes := mkIKEv2TransformTypes (None) (None) (None) (None) (false) (None).

(** /repo/cyclonedx.go:509-516 *)
Record CryptoProtocolProperties := mkCryptoProtocolProperties {
  CryptoProtocolProperties_Type : CryptoProtocolType;
  CryptoProtocolProperties_Version : string;
  CryptoProtocolProperties_CipherSuites : ptr (slice (CipherSuite));
  CryptoProtocolProperties_IKEv2TransformTypes : ptr (IKEv2TransformTypes);
  CryptoProtocolProperties_CryptoRefArray : ptr (slice (BOMReference));
  CryptoProtocolProperties_RelatedCryptographicAssets : ptr (slice (RelatedCryptographicAsset))
}.
Definition set_CryptoProtocolProperties_Type (v : CryptoProtocolType) (x : CryptoProtocolProperties) : CryptoProtocolProperties :=
  mkCryptoProtocolProperties v (CryptoProtocolProperties_Version x) (CryptoProtocolProperties_CipherSuites x) (CryptoProtocolProperties_IKEv2TransformTypes x) (CryptoProtocolProperties_CryptoRefArray x) (CryptoProtocolProperties_RelatedCryptographicAssets x).
Definition set_CryptoProtocolProperties_Version (v : string) (x : CryptoProtocolProperties) : CryptoProtocolProperties :=
  mkCryptoProtocolProperties (CryptoProtocolProperties_Type x) v (CryptoProtocolProperties_CipherSuites x) (CryptoProtocolProperties_IKEv2TransformTypes x) (CryptoProtocolProperties_CryptoRefArray x) (CryptoProtocolProperties_RelatedCryptographicAssets x).
Definition set_CryptoProtocolProperties_CipherSuites (v : ptr (slice (CipherSuite))) (x : CryptoProtocolProperties) : CryptoProtocolProperties :=
  mkCryptoProtocolProperties (CryptoProtocolProperties_Type x) (CryptoProtocolProperties_Version x) v (CryptoProtocolProperties_IKEv2TransformTypes x) (CryptoProtocolProperties_CryptoRefArray x) (CryptoProtocolProperties_RelatedCryptographicAssets x).
Definition set_CryptoProtocolProperties_IKEv2TransformTypes (v : ptr (IKEv2TransformTypes)) (x : CryptoProtocolProperties) : CryptoProtocolProperties :=
  mkCryptoProtocolProperties (CryptoProtocolProperties_Type x) (CryptoProtocolProperties_Version x) (CryptoProtocolProperties_CipherSuites x) v (CryptoProtocolProperties_CryptoRefArray x) (CryptoProtocolProperties_RelatedCryptographicAssets x).
Definition set_CryptoProtocolProperties_CryptoRefArray (v : ptr (slice (BOMReference))) (x : CryptoProtocolProperties) : CryptoProtocolProperties :=
  mkCryptoProtocolProperties (CryptoProtocolProperties_Type x) (CryptoProtocolProperties_Version x) (CryptoProtocolProperties_CipherSuites x) (CryptoProtocolProperties_IKEv2TransformTypes x) v (CryptoProtocolProperties_RelatedCryptographicAssets x).
Definition set_CryptoProtocolProperties_RelatedCryptographicAssets (v : ptr (slice (RelatedCryptographicAsset))) (x : CryptoProtocolProperties) : CryptoProtocolProperties :=
  mkCryptoProtocolProperties (CryptoProtocolProperties_Type x) (CryptoProtocolProperties_Version x) (CryptoProtocolProperties_CipherSuites x) (CryptoProtocolProperties_IKEv2TransformTypes x) (CryptoProtocolProperties_CryptoRefArray x) v.
Definition over_CryptoProtocolProperties_Type (f : CryptoProtocolType -> CryptoProtocolType) (x : CryptoProtocolProperties) : CryptoProtocolProperties := set_CryptoProtocolProperties_Type (f (CryptoProtocolProperties_Type x)) x.
Definition over_CryptoProtocolProperties_Version (f : string -> string) (x : CryptoProtocolProperties) : CryptoProtocolProperties := set_CryptoProtocolProperties_Version (f (CryptoProtocolProperties_Version x)) x.
Definition over_CryptoProtocolProperties_CipherSuites (f : ptr (slice (CipherSuite)) -> ptr (slice (CipherSuite))) (x : CryptoProtocolProperties) : CryptoProtocolProperties := set_CryptoProtocolProperties_CipherSuites (f (CryptoProtocolProperties_CipherSuites x)) x.
Definition over_CryptoProtocolProperties_IKEv2TransformTypes (f : ptr (IKEv2TransformTypes) -> ptr (IKEv2TransformTypes)) (x : CryptoProtocolProperties) : CryptoProtocolProperties := set_CryptoProtocolProperties_IKEv2TransformTypes (f (CryptoProtocolProperties_IKEv2TransformTypes x)) x.
Definition over_CryptoProtocolProperties_CryptoRefArray (f : ptr (slice (BOMReference)) -> ptr (slice (BOMReference))) (x : CryptoProtocolProperties) : CryptoProtocolProperties := set_CryptoProtocolProperties_CryptoRefArray (f (CryptoProtocolProperties_CryptoRefArray x)) x.
Definition over_CryptoProtocolProperties_RelatedCryptographicAssets (f : ptr (slice (RelatedCryptographicAsset)) -> ptr (slice (RelatedCryptographicAsset))) (x : CryptoProtocolProperties) : CryptoProtocolProperties := set_CryptoProtocolProperties_RelatedCryptographicAssets (f (CryptoProtocolProperties_RelatedCryptographicAssets x)) x.
Definition zero_CryptoProtocolProperties : CryptoProtocolProperties := mkCryptoProtocolProperties ("") ("") (None) (None) (None) (None).

(** /repo/cyclonedx.go:500-507 *)
Record CryptoProperties := mkCryptoProperties {
  CryptoProperties_AssetType : CryptoAssetType;
  CryptoProperties_AlgorithmProperties : ptr (CryptoAlgorithmProperties);
  CryptoProperties_CertificateProperties : ptr (CertificateProperties);
  CryptoProperties_RelatedCryptoMaterialProperties : ptr (RelatedCryptoMaterialProperties);
  CryptoProperties_ProtocolProperties : ptr (CryptoProtocolProperties);
  CryptoProperties_OID : string
}.
Definition set_CryptoProperties_AssetType (v : CryptoAssetType) (x : CryptoProperties) : CryptoProperties :=
  mkCryptoProperties v (CryptoProperties_AlgorithmProperties x) (CryptoProperties_CertificateProperties x) (CryptoProperties_RelatedCryptoMaterialProperties x) (CryptoProperties_ProtocolProperties x) (CryptoProperties_OID x).
Definition set_CryptoProperties_AlgorithmProperties (v : ptr (CryptoAlgorithmProperties)) (x : CryptoProperties) : CryptoProperties :=
  mkCryptoProperties (CryptoProperties_AssetType x) v (CryptoProperties_CertificateProperties x) (CryptoProperties_RelatedCryptoMaterialProperties x) (CryptoProperties_ProtocolProperties x) (CryptoProperties_OID x).
Definition set_CryptoProperties_CertificateProperties (v : ptr (CertificateProperties)) (x : CryptoProperties) : CryptoProperties :=
  mkCryptoProperties (CryptoProperties_AssetType x) (CryptoProperties_AlgorithmProperties x) v (CryptoProperties_RelatedCryptoMaterialProperties x) (CryptoProperties_ProtocolProperties x) (CryptoProperties_OID x).
Definition set_CryptoProperties_RelatedCryptoMaterialProperties (v : ptr (RelatedCryptoMaterialProperties)) (x : CryptoProperties) : CryptoProperties :=
  mkCryptoProperties (CryptoProperties_AssetType x) (CryptoProperties_AlgorithmProperties x) (CryptoProperties_CertificateProperties x) v (CryptoProperties_ProtocolProperties x) (CryptoProperties_OID x).
Definition set_CryptoProperties_ProtocolProperties (v : ptr (CryptoProtocolProperties)) (x : CryptoProperties) : CryptoProperties :=
  mkCryptoProperties (CryptoProperties_AssetType x) (CryptoProperties_AlgorithmProperties x) (CryptoProperties_CertificateProperties x) (CryptoProperties_RelatedCryptoMaterialProperties x) v (CryptoProperties_OID x).
Definition set_CryptoProperties_OID (v : string) (x : CryptoProperties) : CryptoProperties :=
  mkCryptoProperties (CryptoProperties_AssetType x) (CryptoProperties_AlgorithmProperties x) (CryptoProperties_CertificateProperties x) (CryptoProperties_RelatedCryptoMaterialProperties x) (CryptoProperties_ProtocolProperties x) v.
Definition over_CryptoProperties_AssetType (f : CryptoAssetType -> CryptoAssetType) (x : CryptoProperties) : CryptoProperties := set_CryptoProperties_AssetType (f (CryptoProperties_AssetType x)) x.
Definition over_CryptoProperties_AlgorithmProperties (f : ptr (CryptoAlgorithmProperties) -> ptr (CryptoAlgorithmProperties)) (x : CryptoProperties) : CryptoProperties := set_CryptoProperties_AlgorithmProperties (f (CryptoProperties_AlgorithmProperties x)) x.
Definition over_CryptoProperties_CertificateProperties (f : ptr (CertificateProperties) -> ptr (CertificateProperties)) (x : CryptoProperties) : CryptoProperties := set_CryptoProperties_CertificateProperties (f (CryptoProperties_CertificateProperties x)) x.
Definition over_CryptoProperties_RelatedCryptoMaterialProperties (f : ptr (RelatedCryptoMaterialProperties) -> ptr (RelatedCryptoMaterialProperties)) (x : CryptoProperties) : CryptoProperties := set_CryptoProperties_RelatedCryptoMaterialProperties (f (CryptoProperties_RelatedCryptoMaterialProperties x)) x.
Definition over_CryptoProperties_ProtocolProperties (f : ptr (CryptoProtocolProperties) -> ptr (CryptoProtocolProperties)) (x : CryptoProperties) : CryptoProperties := set_CryptoProperties_ProtocolProperties (f (CryptoProperties_ProtocolProperties x)) x.
Definition over_CryptoProperties_OID (f : string -> string) (x : CryptoProperties) : CryptoProperties := set_CryptoProperties_OID (f (CryptoProperties_OID x)) x.
Definition zero_CryptoProperties : CryptoProperties := mkCryptoProperties ("") (None) (None) (None) (None) ("").

(** /repo/cyclonedx.go:1772-1776 *)
Record AsserterChoice := mkAsserterChoice {
  AsserterChoice_Organization : ptr (OrganizationalEntity);
  AsserterChoice_Individual : ptr (OrganizationalContact);
  AsserterChoice_BOMRef : ptr (BOMReference)
}.
Definition set_AsserterChoice_Organization (v : ptr (OrganizationalEntity)) (x : AsserterChoice) : AsserterChoice :=
  mkAsserterChoice v (AsserterChoice_Individual x) (AsserterChoice_BOMRef x).
Definition set_AsserterChoice_Individual (v : ptr (OrganizationalContact)) (x : AsserterChoice) : AsserterChoice :=
  mkAsserterChoice (AsserterChoice_Organization x) v (AsserterChoice_BOMRef x).
Definition set_AsserterChoice_BOMRef (v : ptr (BOMReference)) (x : AsserterChoice) : AsserterChoice :=
  mkAsserterChoice (AsserterChoice_Organization x) (AsserterChoice_Individual x) v.
Definition over_AsserterChoice_Organization (f : ptr (OrganizationalEntity) -> ptr (OrganizationalEntity)) (x : AsserterChoice) : AsserterChoice := set_AsserterChoice_Organization (f (AsserterChoice_Organization x)) x.
Definition over_AsserterChoice_Individual (f : ptr (OrganizationalContact) -> ptr (OrganizationalContact)) (x : AsserterChoice) : AsserterChoice := set_AsserterChoice_Individual (f (AsserterChoice_Individual x)) x.
Definition over_AsserterChoice_BOMRef (f : ptr (BOMReference) -> ptr (BOMReference)) (x : AsserterChoice) : AsserterChoice := set_AsserterChoice_BOMRef (f (AsserterChoice_BOMRef x)) x.
Definition zero_AsserterChoice : AsserterChoice := mkAsserterChoice (None) (None) (None).

(** /repo/cyclonedx.go:1779-1785 *)
Record PatentAssertion := mkPatentAssertion {
  PatentAssertion_BOMRef : string;
  PatentAssertion_PatentRefs : ptr (slice (BOMReference));
  PatentAssertion_AssertionType : PatentAssertionType;
  PatentAssertion_Asserter : ptr (AsserterChoice);
  PatentAssertion_Notes : string
}.
Definition set_PatentAssertion_BOMRef (v : string) (x : PatentAssertion) : PatentAssertion :=
  mkPatentAssertion v (PatentAssertion_PatentRefs x) (PatentAssertion_AssertionType x) (PatentAssertion_Asserter x) (PatentAssertion_Notes x).
Definition set_PatentAssertion_PatentRefs (v : ptr (slice (BOMReference))) (x : PatentAssertion) : PatentAssertion :=
  mkPatentAssertion (PatentAssertion_BOMRef x) v (PatentAssertion_AssertionType x) (PatentAssertion_Asserter x) (PatentAssertion_Notes x).
Definition set_PatentAssertion_AssertionType (v : PatentAssertionType) (x : PatentAssertion) : PatentAssertion :=
  mkPatentAssertion (PatentAssertion_BOMRef x) (PatentAssertion_PatentRefs x) v (PatentAssertion_Asserter x) (PatentAssertion_Notes x).
Definition set_PatentAssertion_Asserter (v : ptr (AsserterChoice)) (x : PatentAssertion) : PatentAssertion :=
  mkPatentAssertion (PatentAssertion_BOMRef x) (PatentAssertion_PatentRefs x) (PatentAssertion_AssertionType x) v (PatentAssertion_Notes x).
Definition set_PatentAssertion_Notes (v : string) (x : PatentAssertion) : PatentAssertion :=
  mkPatentAssertion (PatentAssertion_BOMRef x) (PatentAssertion_PatentRefs x) (PatentAssertion_AssertionType x) (PatentAssertion_Asserter x) v.
Definition over_PatentAssertion_BOMRef (f : string -> string) (x : PatentAssertion) : PatentAssertion := set_PatentAssertion_BOMRef (f (PatentAssertion_BOMRef x)) x.
Definition over_PatentAssertion_PatentRefs (f : ptr (slice (BOMReference)) -> ptr (slice (BOMReference))) (x : PatentAssertion) : PatentAssertion := set_PatentAssertion_PatentRefs (f (PatentAssertion_PatentRefs x)) x.
Definition over_PatentAssertion_AssertionType (f : PatentAssertionType -> PatentAssertionType) (x : PatentAssertion) : PatentAssertion := set_PatentAssertion_AssertionType (f (PatentAssertion_AssertionType x)) x.
Definition over_PatentAssertion_Asserter (f : ptr (AsserterChoice) -> ptr (AsserterChoice)) (x : PatentAssertion) : PatentAssertion := set_PatentAssertion_Asserter (f (PatentAssertion_Asserter x)) x.
Definition over_PatentAssertion_Notes (f : string -> string) (x : PatentAssertion) : PatentAssertion := set_PatentAssertion_Notes (f (PatentAssertion_Notes x)) x.
Definition zero_PatentAssertion : PatentAssertion := mkPatentAssertion ("") (None) ("") (None) ("").

(** /repo/cyclonedx.go:925-934 *)
Record JSFPublicKey := mkJSFPublicKey {
  JSFPublicKey_KTY : string;
  JSFPublicKey_CRV : string;
  JSFPublicKey_X : string;
  JSFPublicKey_Y : string;
  JSFPublicKey_N : string;
  JSFPublicKey_E : string
}.
Definition set_JSFPublicKey_KTY (v : string) (x : JSFPublicKey) : JSFPublicKey :=
  mkJSFPublicKey v (JSFPublicKey_CRV x) (JSFPublicKey_X x) (JSFPublicKey_Y x) (JSFPublicKey_N x) (JSFPublicKey_E x).
Definition set_JSFPublicKey_CRV (v : string) (x : JSFPublicKey) : JSFPublicKey :=
  mkJSFPublicKey (JSFPublicKey_KTY x) v (JSFPublicKey_X x) (JSFPublicKey_Y x) (JSFPublicKey_N x) (JSFPublicKey_E x).
Definition set_JSFPublicKey_X (v : string) (x : JSFPublicKey) : JSFPublicKey :=
  mkJSFPublicKey (JSFPublicKey_KTY x) (JSFPublicKey_CRV x) v (JSFPublicKey_Y x) (JSFPublicKey_N x) (JSFPublicKey_E x).
Definition set_JSFPublicKey_Y (v : string) (x : JSFPublicKey) : JSFPublicKey :=
  mkJSFPublicKey (JSFPublicKey_KTY x) (JSFPublicKey_CRV x) (JSFPublicKey_X x) v (JSFPublicKey_N x) (JSFPublicKey_E x).
Definition set_JSFPublicKey_N (v : string) (x : JSFPublicKey) : JSFPublicKey :=
  mkJSFPublicKey (JSFPublicKey_KTY x) (JSFPublicKey_CRV x) (JSFPublicKey_X x) (JSFPublicKey_Y x) v (JSFPublicKey_E x).
Definition set_JSFPublicKey_E (v : string) (x : JSFPublicKey) : JSFPublicKey :=
  mkJSFPublicKey (JSFPublicKey_KTY x) (JSFPublicKey_CRV x) (JSFPublicKey_X x) (JSFPublicKey_Y x) (JSFPublicKey_N x) v.
Definition over_JSFPublicKey_KTY (f : string -> string) (x : JSFPublicKey) : JSFPublicKey := set_JSFPublicKey_KTY (f (JSFPublicKey_KTY x)) x.
Definition over_JSFPublicKey_CRV (f : string -> string) (x : JSFPublicKey) : JSFPublicKey := set_JSFPublicKey_CRV (f (JSFPublicKey_CRV x)) x.
Definition over_JSFPublicKey_X (f : string -> string) (x : JSFPublicKey) : JSFPublicKey := set_JSFPublicKey_X (f (JSFPublicKey_X x)) x.
Definition over_JSFPublicKey_Y (f : string -> string) (x : JSFPublicKey) : JSFPublicKey := set_JSFPublicKey_Y (f (JSFPublicKey_Y x)) x.
Definition over_JSFPublicKey_N (f : string -> string) (x : JSFPublicKey) : JSFPublicKey := set_JSFPublicKey_N (f (JSFPublicKey_N x)) x.
Definition over_JSFPublicKey_E (f : string -> string) (x : JSFPublicKey) : JSFPublicKey := set_JSFPublicKey_E (f (JSFPublicKey_E x)) x.
Definition zero_JSFPublicKey : JSFPublicKey := mkJSFPublicKey ("") ("") ("") ("") ("") ("").

(** /repo/cyclonedx.go:916-923 *)
Record JSFSigner := mkJSFSigner {
  JSFSigner_Algorithm : string;
  JSFSigner_KeyID : string;
  JSFSigner_PublicKey : JSFPublicKey;
  JSFSigner_CertificatePath : ptr (slice (string));
  JSFSigner_Excludes : ptr (slice (string));
  JSFSigner_Value : string
}.
Definition set_JSFSigner_Algorithm (v : string) (x : JSFSigner) : JSFSigner :=
  mkJSFSigner v (JSFSigner_KeyID x) (JSFSigner_PublicKey x) (JSFSigner_CertificatePath x) (JSFSigner_Excludes x) (JSFSigner_Value x).
Definition set_JSFSigner_KeyID (v : string) (x : JSFSigner) : JSFSigner :=
  mkJSFSigner (JSFSigner_Algorithm x) v (JSFSigner_PublicKey x) (JSFSigner_CertificatePath x) (JSFSigner_Excludes x) (JSFSigner_Value x).
Definition set_JSFSigner_PublicKey (v : JSFPublicKey) (x : JSFSigner) : JSFSigner :=
  mkJSFSigner (JSFSigner_Algorithm x) (JSFSigner_KeyID x) v (JSFSigner_CertificatePath x) (JSFSigner_Excludes x) (JSFSigner_Value x).
Definition set_JSFSigner_CertificatePath (v : ptr (slice (string))) (x : JSFSigner) : JSFSigner :=
  mkJSFSigner (JSFSigner_Algorithm x) (JSFSigner_KeyID x) (JSFSigner_PublicKey x) v (JSFSigner_Excludes x) (JSFSigner_Value x).
Definition set_JSFSigner_Excludes (v : ptr (slice (string))) (x : JSFSigner) : JSFSigner :=
  mkJSFSigner (JSFSigner_Algorithm x) (JSFSigner_KeyID x) (JSFSigner_PublicKey x) (JSFSigner_CertificatePath x) v (JSFSigner_Value x).
Definition set_JSFSigner_Value (v : string) (x : JSFSigner) : JSFSigner :=
  mkJSFSigner (JSFSigner_Algorithm x) (JSFSigner_KeyID x) (JSFSigner_PublicKey x) (JSFSigner_CertificatePath x) (JSFSigner_Excludes x) v.
Definition over_JSFSigner_Algorithm (f : string -> string) (x : JSFSigner) : JSFSigner := set_JSFSigner_Algorithm (f (JSFSigner_Algorithm x)) x.
Definition over_JSFSigner_KeyID (f : string -> string) (x : JSFSigner) : JSFSigner := set_JSFSigner_KeyID (f (JSFSigner_KeyID x)) x.
Definition over_JSFSigner_PublicKey (f : JSFPublicKey -> JSFPublicKey) (x : JSFSigner) : JSFSigner := set_JSFSigner_PublicKey (f (JSFSigner_PublicKey x)) x.
Definition over_JSFSigner_CertificatePath (f : ptr (slice (string)) -> ptr (slice (string))) (x : JSFSigner) : JSFSigner := set_JSFSigner_CertificatePath (f (JSFSigner_CertificatePath x)) x.
Definition over_JSFSigner_Excludes (f : ptr (slice (string)) -> ptr (slice (string))) (x : JSFSigner) : JSFSigner := set_JSFSigner_Excludes (f (JSFSigner_Excludes x)) x.
Definition over_JSFSigner_Value (f : string -> string) (x : JSFSigner) : JSFSigner := set_JSFSigner_Value (f (JSFSigner_Value x)) x.
Definition zero_JSFSigner : JSFSigner := mkJSFSigner ("") ("") (zero_JSFPublicKey) (None) (None) ("").

(** /repo/cyclonedx.go:909-914 *)
Record JSFSignature := mkJSFSignature {
  JSFSignature_JSFSigner : ptr (JSFSigner);
  JSFSignature_Signers : ptr (slice (JSFSigner));
  JSFSignature_Chain : ptr (slice (JSFSigner))
}.
Definition set_JSFSignature_JSFSigner (v : ptr (JSFSigner)) (x : JSFSignature) : JSFSignature :=
  mkJSFSignature v (JSFSignature_Signers x) (JSFSignature_Chain x).
Definition set_JSFSignature_Signers (v : ptr (slice (JSFSigner))) (x : JSFSignature) : JSFSignature :=
  mkJSFSignature (JSFSignature_JSFSigner x) v (JSFSignature_Chain x).
Definition set_JSFSignature_Chain (v : ptr (slice (JSFSigner))) (x : JSFSignature) : JSFSignature :=
  mkJSFSignature (JSFSignature_JSFSigner x) (JSFSignature_Signers x) v.
Definition over_JSFSignature_JSFSigner (f : ptr (JSFSigner) -> ptr (JSFSigner)) (x : JSFSignature) : JSFSignature := set_JSFSignature_JSFSigner (f (JSFSignature_JSFSigner x)) x.
Definition over_JSFSignature_Signers (f : ptr (slice (JSFSigner)) -> ptr (slice (JSFSigner))) (x : JSFSignature) : JSFSignature := set_JSFSignature_Signers (f (JSFSignature_Signers x)) x.
Definition over_JSFSignature_Chain (f : ptr (slice (JSFSigner)) -> ptr (slice (JSFSigner))) (x : JSFSignature) : JSFSignature := set_JSFSignature_Chain (f (JSFSignature_Chain x)) x.
Definition zero_JSFSignature : JSFSignature := mkJSFSignature (None) (None) (None).

(** /repo/cyclonedx.go:239-276 *)
Inductive Component := mkComponent {
  Component_BOMRef : string;
  Component_MIMEType : string;
  Component_Type : ComponentType;
  Component_Supplier : ptr (OrganizationalEntity);
  Component_Manufacturer : ptr (OrganizationalEntity);
  Component_Author : string;
  Component_Authors : ptr (slice (OrganizationalContact));
  Component_Publisher : string;
  Component_Group : string;
  Component_Name : string;
  Component_Version : string;
  Component_Description : string;
  Component_Scope : Scope;
  Component_Hashes : ptr (slice (Hash));
  Component_Licenses : ptr (Licenses);
  Component_Copyright : string;
  Component_CPE : string;
  Component_PackageURL : string;
  Component_OmniborID : ptr (slice (string));
  Component_SWHID : ptr (slice (string));
  Component_SWID : ptr (SWID);
  Component_Modified : ptr (bool);
  Component_Pedigree : ptr (Pedigree_ Component);
  Component_ExternalReferences : ptr (slice (ExternalReference));
  Component_Properties : ptr (slice (Property));
  Component_Components : ptr (slice (Component));
  Component_Evidence : ptr (Evidence);
  Component_ReleaseNotes : ptr (ReleaseNotes);
  Component_ModelCard : ptr (MLModelCard);
  Component_Data : ptr (slice (ComponentData));
  Component_CryptoProperties : ptr (CryptoProperties);
  Component_Tags : ptr (slice (string));
  Component_IsExternal : ptr (bool);
  Component_PatentAssertions : ptr (slice (PatentAssertion));
  Component_VersionRange : string;
  Component_Signature : ptr (JSFSignature)
}.
Definition set_Component_BOMRef (v : string) (x : Component) : Component :=
  mkComponent v (Component_MIMEType x) (Component_Type x) (Component_Supplier x) (Component_Manufacturer x) (Component_Author x) (Component_Authors x) (Component_Publisher x) (Component_Group x) (Component_Name x) (Component_Version x) (Component_Description x) (Component_Scope x) (Component_Hashes x) (Component_Licenses x) (Component_Copyright x) (Component_CPE x) (Component_PackageURL x) (Component_OmniborID x) (Component_SWHID x) (Component_SWID x) (Component_Modified x) (Component_Pedigree x) (Component_ExternalReferences x) (Component_Properties x) (Component_Components x) (Component_Evidence x) (Component_ReleaseNotes x) (Component_ModelCard x) (Component_Data x) (Component_CryptoProperties x) (Component_Tags x) (Component_IsExternal x) (Component_PatentAssertions x) (Component_VersionRange x) (Component_Signature x).
Definition set_Component_MIMEType (v : string) (x : Component) : Component :=
  mkComponent (Component_BOMRef x) v (Component_Type x) (Component_Supplier x) (Component_Manufacturer x) (Component_Author x) (Component_Authors x) (Component_Publisher x) (Component_Group x) (Component_Name x) (Component_Version x) (Component_Description x) (Component_Scope x) (Component_Hashes x) (Component_Licenses x) (Component_Copyright x) (Component_CPE x) (Component_PackageURL x) (Component_OmniborID x) (Component_SWHID x) (Component_SWID x) (Component_Modified x) (Component_Pedigree x) (Component_ExternalReferences x) (Component_Properties x) (Component_Components x) (Component_Evidence x) (Component_ReleaseNotes x) (Component_ModelCard x) (Component_Data x) (Component_CryptoProperties x) (Component_Tags x) (Component_IsExternal x) (Component_PatentAssertions x) (Component_VersionRange x) (Component_Signature x).
Definition set_Component_Type (v : ComponentType) (x : Component) : Component :=
  mkComponent (Component_BOMRef x) (Component_MIMEType x) v (Component_Supplier x) (Component_Manufacturer x) (Component_Author x) (Component_Authors x) (Component_Publisher x) (Component_Group x) (Component_Name x) (Component_Version x) (Component_Description x) (Component_Scope x) (Component_Hashes x) (Component_Licenses x) (Component_Copyright x) (Component_CPE x) (Component_PackageURL x) (Component_OmniborID x) (Component_SWHID x) (Component_SWID x) (Component_Modified x) (Component_Pedigree x) (Component_ExternalReferences x) (Component_Properties x) (Component_Components x) (Component_Evidence x) (Component_ReleaseNotes x) (Component_ModelCard x) (Component_Data x) (Component_CryptoProperties x) (Component_Tags x) (Component_IsExternal x) (Component_PatentAssertions x) (Component_VersionRange x) (Component_Signature x).
Definition set_Component_Supplier (v : ptr (OrganizationalEntity)) (x : Component) : Component :=
  mkComponent (Component_BOMRef x) (Component_MIMEType x) (Component_Type x) v (Component_Manufacturer x) (Component_Author x) (Component_Authors x) (Component_Publisher x) (Component_Group x) (Component_Name x) (Component_Version x) (Component_Description x) (Component_Scope x) (Component_Hashes x) (Component_Licenses x) (Component_Copyright x) (Component_CPE x) (Component_PackageURL x) (Component_OmniborID x) (Component_SWHID x) (Component_SWID x) (Component_Modified x) (Component_Pedigree x) (Component_ExternalReferences x) (Component_Properties x) (Component_Components x) (Component_Evidence x) (Component_ReleaseNotes x) (Component_ModelCard x) (Component_Data x) (Component_CryptoProperties x) (Component_Tags x) (Component_IsExternal x) (Component_PatentAssertions x) (Component_VersionRange x) (Component_Signature x).
Definition set_Component_Manufacturer (v : ptr (OrganizationalEntity)) (x : Component) : Component :=
  mkComponent (Component_BOMRef x) (Component_MIMEType x) (Component_Type x) (Component_Supplier x) v (Component_Author x) (Component_Authors x) (Component_Publisher x) (Component_Group x) (Component_Name x) (Component_Version x) (Component_Description x) (Component_Scope x) (Component_Hashes x) (Component_Licenses x) (Component_Copyright x) (Component_CPE x) (Component_PackageURL x) (Component_OmniborID x) (Component_SWHID x) (Component_SWID x) (Component_Modified x) (Component_Pedigree x) (Component_ExternalReferences x) (Component_Properties x) (Component_Components x) (Component_Evidence x) (Component_ReleaseNotes x) (Component_ModelCard x) (Component_Data x) (Component_CryptoProperties x) (Component_Tags x) (Component_IsExternal x) (Component_PatentAssertions x) (Component_VersionRange x) (Component_Signature x).
Definition set_Component_Author (v : string) (x : Component) : Component :=
  mkComponent (Component_BOMRef x) (Component_MIMEType x) (Component_Type x) (Component_Supplier x) (Component_Manufacturer x) v (Component_Authors x) (Component_Publisher x) (Component_Group x) (Component_Name x) (Component_Version x) (Component_Description x) (Component_Scope x) (Component_Hashes x) (Component_Licenses x) (Component_Copyright x) (Component_CPE x) (Component_PackageURL x) (Component_OmniborID x) (Component_SWHID x) (Component_SWID x) (Component_Modified x) (Component_Pedigree x) (Component_ExternalReferences x) (Component_Properties x) (Component_Components x) (Component_Evidence x) (Component_ReleaseNotes x) (Component_ModelCard x) (Component_Data x) (Component_CryptoProperties x) (Component_Tags x) (Component_IsExternal x) (Component_PatentAssertions x) (Component_VersionRange x) (Component_Signature x).
Definition set_Component_Authors (v : ptr (slice (OrganizationalContact))) (x : Component) : Component :=
  mkComponent (Component_BOMRef x) (Component_MIMEType x) (Component_Type x) (Component_Supplier x) (Component_Manufacturer x) (Component_Author x) v (Component_Publisher x) (Component_Group x) (Component_Name x) (Component_Version x) (Component_Description x) (Component_Scope x) (Component_Hashes x) (Component_Licenses x) (Component_Copyright x) (Component_CPE x) (Component_PackageURL x) (Component_OmniborID x) (Component_SWHID x) (Component_SWID x) (Component_Modified x) (Component_Pedigree x) (Component_ExternalReferences x) (Component_Properties x) (Component_Components x) (Component_Evidence x) (Component_ReleaseNotes x) (Component_ModelCard x) (Component_Data x) (Component_CryptoProperties x) (Component_Tags x) (Component_IsExternal x) (Component_PatentAssertions x) (Component_VersionRange x) (Component_Signature x).
Definition set_Component_Publisher (v : string) (x : Component) : Component :=
  mkComponent (Component_BOMRef x) (Component_MIMEType x) (Component_Type x) (Component_Supplier x) (Component_Manufacturer x) (Component_Author x) (Component_Authors x) v (Component_Group x) (Component_Name x) (Component_Version x) (Component_Description x) (Component_Scope x) (Component_Hashes x) (Component_Licenses x) (Component_Copyright x) (Component_CPE x) (Component_PackageURL x) (Component_OmniborID x) (Component_SWHID x) (Component_SWID x) (Component_Modified x) (Component_Pedigree x) (Component_ExternalReferences x) (Component_Properties x) (Component_Components x) (Component_Evidence x) (Component_ReleaseNotes x) (Component_ModelCard x) (Component_Data x) (Component_CryptoProperties x) (Component_Tags x) (Component_IsExternal x) (Component_PatentAssertions x) (Component_VersionRange x) (Component_Signature x).
Definition set_Component_Group (v : string) (x : Component) : Component :=
  mkComponent (Component_BOMRef x) (Component_MIMEType x) (Component_Type x) (Component_Supplier x) (Component_Manufacturer x) (Component_Author x) (Component_Authors x) (Component_Publisher x) v (Component_Name x) (Component_Version x) (Component_Description x) (Component_Scope x) (Component_Hashes x) (Component_Licenses x) (Component_Copyright x) (Component_CPE x) (Component_PackageURL x) (Component_OmniborID x) (Component_SWHID x) (Component_SWID x) (Component_Modified x) (Component_Pedigree x) (Component_ExternalReferences x) (Component_Properties x) (Component_Components x) (Component_Evidence x) (Component_ReleaseNotes x) (Component_ModelCard x) (Component_Data x) (Component_CryptoProperties x) (Component_Tags x) (Component_IsExternal x) (Component_PatentAssertions x) (Component_VersionRange x) (Component_Signature x).
Definition set_Component_Name (v : string) (x : Component) : Component :=
  mkComponent (Component_BOMRef x) (Component_MIMEType x) (Component_Type x) (Component_Supplier x) (Component_Manufacturer x) (Component_Author x) (Component_Authors x) (Component_Publisher x) (Component_Group x) v (Component_Version x) (Component_Description x) (Component_Scope x) (Component_Hashes x) (Component_Licenses x) (Component_Copyright x) (Component_CPE x) (Component_PackageURL x) (Component_OmniborID x) (Component_SWHID x) (Component_SWID x) (Component_Modified x) (Component_Pedigree x) (Component_ExternalReferences x) (Component_Properties x) (Component_Components x) (Component_Evidence x) (Component_ReleaseNotes x) (Component_ModelCard x) (Component_Data x) (Component_CryptoProperties x) (Component_Tags x) (Component_IsExternal x) (Component_PatentAssertions x) (Component_VersionRange x) (Component_Signature x).
Definition set_Component_Version (v : string) (x : Component) : Component :=
  mkComponent (Component_BOMRef x) (Component_MIMEType x) (Component_Type x) (Component_Supplier x) (Component_Manufacturer x) (Component_Author x) (Component_Authors x) (Component_Publisher x) (Component_Group x) (Component_Name x) v (Component_Description x) (Component_Scope x) (Component_Hashes x) (Component_Licenses x) (Component_Copyright x) (Component_CPE x) (Component_PackageURL x) (Component_OmniborID x) (Component_SWHID x) (Component_SWID x) (Component_Modified x) (Component_Pedigree x) (Component_ExternalReferences x) (Component_Properties x) (Component_Components x) (Component_Evidence x) (Component_ReleaseNotes x) (Component_ModelCard x) (Component_Data x) (Component_CryptoProperties x) (Component_Tags x) (Component_IsExternal x) (Component_PatentAssertions x) (Component_VersionRange x) (Component_Signature x).
Definition set_Component_Description (v : string) (x : Component) : Component :=
  mkComponent (Component_BOMRef x) (Component_MIMEType x) (Component_Type x) (Component_Supplier x) (Component_Manufacturer x) (Component_Author x) (Component_Authors x) (Component_Publisher x) (Component_Group x) (Component_Name x) (Component_Version x) v (Component_Scope x) (Component_Hashes x) (Component_Licenses x) (Component_Copyright x) (Component_CPE x) (Component_PackageURL x) (Component_OmniborID x) (Component_SWHID x) (Component_SWID x) (Component_Modified x) (Component_Pedigree x) (Component_ExternalReferences x) (Component_Properties x) (Component_Components x) (Component_Evidence x) (Component_ReleaseNotes x) (Component_ModelCard x) (Component_Data x) (Component_CryptoProperties x) (Component_Tags x) (Component_IsExternal x) (Component_PatentAssertions x) (Component_VersionRange x) (Component_Signature x).
Definition set_Component_Scope (v : Scope) (x : Component) : Component :=
  mkComponent (Component_BOMRef x) (Component_MIMEType x) (Component_Type x) (Component_Supplier x) (Component_Manufacturer x) (Component_Author x) (Component_Authors x) (Component_Publisher x) (Component_Group x) (Component_Name x) (Component_Version x) (Component_Description x) v (Component_Hashes x) (Component_Licenses x) (Component_Copyright x) (Component_CPE x) (Component_PackageURL x) (Component_OmniborID x) (Component_SWHID x) (Component_SWID x) (Component_Modified x) (Component_Pedigree x) (Component_ExternalReferences x) (Component_Properties x) (Component_Components x) (Component_Evidence x) (Component_ReleaseNotes x) (Component_ModelCard x) (Component_Data x) (Component_CryptoProperties x) (Component_Tags x) (Component_IsExternal x) (Component_PatentAssertions x) (Component_VersionRange x) (Component_Signature x).
Definition set_Component_Hashes (v : ptr (slice (Hash))) (x : Component) : Component :=
  mkComponent (Component_BOMRef x) (Component_MIMEType x) (Component_Type x) (Component_Supplier x) (Component_Manufacturer x) (Component_Author x) (Component_Authors x) (Component_Publisher x) (Component_Group x) (Component_Name x) (Component_Version x) (Component_Description x) (Component_Scope x) v (Component_Licenses x) (Component_Copyright x) (Component_CPE x) (Component_PackageURL x) (Component_OmniborID x) (Component_SWHID x) (Component_SWID x) (Component_Modified x) (Component_Pedigree x) (Component_ExternalReferences x) (Component_Properties x) (Component_Components x) (Component_Evidence x) (Component_ReleaseNotes x) (Component_ModelCard x) (Component_Data x) (Component_CryptoProperties x) (Component_Tags x) (Component_IsExternal x) (Component_PatentAssertions x) (Component_VersionRange x) (Component_Signature x).
Definition set_Component_Licenses (v : ptr (Licenses)) (x : Component) : Component :=
  mkComponent (Component_BOMRef x) (Component_MIMEType x) (Component_Type x) (Component_Supplier x) (Component_Manufacturer x) (Component_Author x) (Component_Authors x) (Component_Publisher x) (Component_Group x) (Component_Name x) (Component_Version x) (Component_Description x) (Component_Scope x) (Component_Hashes x) v (Component_Copyright x) (Component_CPE x) (Component_PackageURL x) (Component_OmniborID x) (Component_SWHID x) (Component_SWID x) (Component_Modified x) (Component_Pedigree x) (Component_ExternalReferences x) (Component_Properties x) (Component_Components x) (Component_Evidence x) (Component_ReleaseNotes x) (Component_ModelCard x) (Component_Data x) (Component_CryptoProperties x) (Component_Tags x) (Component_IsExternal x) (Component_PatentAssertions x) (Component_VersionRange x) (Component_Signature x).
Definition set_Component_Copyright (v : string) (x : Component) : Component :=
  mkComponent (Component_BOMRef x) (Component_MIMEType x) (Component_Type x) (Component_Supplier x) (Component_Manufacturer x) (Component_Author x) (Component_Authors x) (Component_Publisher x) (Component_Group x) (Component_Name x) (Component_Version x) (Component_Description x) (Component_Scope x) (Component_Hashes x) (Component_Licenses x) v (Component_CPE x) (Component_PackageURL x) (Component_OmniborID x) (Component_SWHID x) (Component_SWID x) (Component_Modified x) (Component_Pedigree x) (Component_ExternalReferences x) (Component_Properties x) (Component_Components x) (Component_Evidence x) (Component_ReleaseNotes x) (Component_ModelCard x) (Component_Data x) (Component_CryptoProperties x) (Component_Tags x) (Component_IsExternal x) (Component_PatentAssertions x) (Component_VersionRange x) (Component_Signature x).
Definition set_Component_CPE (v : string) (x : Component) : Component :=
  mkComponent (Component_BOMRef x) (Component_MIMEType x) (Component_Type x) (Component_Supplier x) (Component_Manufacturer x) (Component_Author x) (Component_Authors x) (Component_Publisher x) (Component_Group x) (Component_Name x) (Component_Version x) (Component_Description x) (Component_Scope x) (Component_Hashes x) (Component_Licenses x) (Component_Copyright x) v (Component_PackageURL x) (Component_OmniborID x) (Component_SWHID x) (Component_SWID x) (Component_Modified x) (Component_Pedigree x) (Component_ExternalReferences x) (Component_Properties x) (Component_Components x) (Component_Evidence x) (Component_ReleaseNotes x) (Component_ModelCard x) (Component_Data x) (Component_CryptoProperties x) (Component_Tags x) (Component_IsExternal x) (Component_PatentAssertions x) (Component_VersionRange x) (Component_Signature x).
Definition set_Component_PackageURL (v : string) (x : Component) : Component :=
  mkComponent (Component_BOMRef x) (Component_MIMEType x) (Component_Type x) (Component_Supplier x) (Component_Manufacturer x) (Component_Author x) (Component_Authors x) (Component_Publisher x) (Component_Group x) (Component_Name x) (Component_Version x) (Component_Description x) (Component_Scope x) (Component_Hashes x) (Component_Licenses x) (Component_Copyright x) (Component_CPE x) v (Component_OmniborID x) (Component_SWHID x) (Component_SWID x) (Component_Modified x) (Component_Pedigree x) (Component_ExternalReferences x) (Component_Properties x) (Component_Components x) (Component_Evidence x) (Component_ReleaseNotes x) (Component_ModelCard x) (Component_Data x) (Component_CryptoProperties x) (Component_Tags x) (Component_IsExternal x) (Component_PatentAssertions x) (Component_VersionRange x) (Component_Signature x).
Definition set_Component_OmniborID (v : ptr (slice (string))) (x : Component) : Component :=
  mkComponent (Component_BOMRef x) (Component_MIMEType x) (Component_Type x) (Component_Supplier x) (Component_Manufacturer x) (Component_Author x) (Component_Authors x) (Component_Publisher x) (Component_Group x) (Component_Name x) (Component_Version x) (Component_Description x) (Component_Scope x) (Component_Hashes x) (Component_Licenses x) (Component_Copyright x) (Component_CPE x) (Component_PackageURL x) v (Component_SWHID x) (Component_SWID x) (Component_Modified x) (Component_Pedigree x) (Component_ExternalReferences x) (Component_Properties x) (Component_Components x) (Component_Evidence x) (Component_ReleaseNotes x) (Component_ModelCard x) (Component_Data x) (Component_CryptoProperties x) (Component_Tags x) (Component_IsExternal x) (Component_PatentAssertions x) (Component_VersionRange x) (Component_Signature x).
Definition set_Component_SWHID (v : ptr (slice (string))) (x : Component) : Component :=
  mkComponent (Component_BOMRef x) (Component_MIMEType x) (Component_Type x) (Component_Supplier x) (Component_Manufacturer x) (Component_Author x) (Component_Authors x) (Component_Publisher x) (Component_Group x) (Component_Name x) (Component_Version x) (Component_Description x) (Component_Scope x) (Component_Hashes x) (Component_Licenses x) (Component_Copyright x) (Component_CPE x) (Component_PackageURL x) (Component_OmniborID x) v (Component_SWID x) (Component_Modified x) (Component_Pedigree x) (Component_ExternalReferences x) (Component_Properties x) (Component_Components x) (Component_Evidence x) (Component_ReleaseNotes x) (Component_ModelCard x) (Component_Data x) (Component_CryptoProperties x) (Component_Tags x) (Component_IsExternal x) (Component_PatentAssertions x) (Component_VersionRange x) (Component_Signature x).
Definition set_Component_SWID (v : ptr (SWID)) (x : Component) : Component :=
  mkComponent (Component_BOMRef x) (Component_MIMEType x) (Component_Type x) (Component_Supplier x) (Component_Manufacturer x) (Component_Author x) (Component_Authors x) (Component_Publisher x) (Component_Group x) (Component_Name x) (Component_Version x) (Component_Description x) (Component_Scope x) (Component_Hashes x) (Component_Licenses x) (Component_Copyright x) (Component_CPE x) (Component_PackageURL x) (Component_OmniborID x) (Component_SWHID x) v (Component_Modified x) (Component_Pedigree x) (Component_ExternalReferences x) (Component_Properties x) (Component_Components x) (Component_Evidence x) (Component_ReleaseNotes x) (Component_ModelCard x) (Component_Data x) (Component_CryptoProperties x) (Component_Tags x) (Component_IsExternal x) (Component_PatentAssertions x) (Component_VersionRange x) (Component_Signature x).
Definition set_Component_Modified (v : ptr (bool)) (x : Component) : Component :=
  mkComponent (Component_BOMRef x) (Component_MIMEType x) (Component_Type x) (Component_Supplier x) (Component_Manufacturer x) (Component_Author x) (Component_Authors x) (Component_Publisher x) (Component_Group x) (Component_Name x) (Component_Version x) (Component_Description x) (Component_Scope x) (Component_Hashes x) (Component_Licenses x) (Component_Copyright x) (Component_CPE x) (Component_PackageURL x) (Component_OmniborID x) (Component_SWHID x) (Component_SWID x) v (Component_Pedigree x) (Component_ExternalReferences x) (Component_Properties x) (Component_Components x) (Component_Evidence x) (Component_ReleaseNotes x) (Component_ModelCard x) (Component_Data x) (Component_CryptoProperties x) (Component_Tags x) (Component_IsExternal x) (Component_PatentAssertions x) (Component_VersionRange x) (Component_Signature x).
Definition set_Component_Pedigree (v : ptr (Pedigree_ Component)) (x : Component) : Component :=
  mkComponent (Component_BOMRef x) (Component_MIMEType x) (Component_Type x) (Component_Supplier x) (Component_Manufacturer x) (Component_Author x) (Component_Authors x) (Component_Publisher x) (Component_Group x) (Component_Name x) (Component_Version x) (Component_Description x) (Component_Scope x) (Component_Hashes x) (Component_Licenses x) (Component_Copyright x) (Component_CPE x) (Component_PackageURL x) (Component_OmniborID x) (Component_SWHID x) (Component_SWID x) (Component_Modified x) v (Component_ExternalReferences x) (Component_Properties x) (Component_Components x) (Component_Evidence x) (Component_ReleaseNotes x) (Component_ModelCard x) (Component_Data x) (Component_CryptoProperties x) (Component_Tags x) (Component_IsExternal x) (Component_PatentAssertions x) (Component_VersionRange x) (Component_Signature x).
Definition set_Component_ExternalReferences (v : ptr (slice (ExternalReference))) (x : Component) : Component :=
  mkComponent (Component_BOMRef x) (Component_MIMEType x) (Component_Type x) (Component_Supplier x) (Component_Manufacturer x) (Component_Author x) (Component_Authors x) (Component_Publisher x) (Component_Group x) (Component_Name x) (Component_Version x) (Component_Description x) (Component_Scope x) (Component_Hashes x) (Component_Licenses x) (Component_Copyright x) (Component_CPE x) (Component_PackageURL x) (Component_OmniborID x) (Component_SWHID x) (Component_SWID x) (Component_Modified x) (Component_Pedigree x) v (Component_Properties x) (Component_Components x) (Component_Evidence x) (Component_ReleaseNotes x) (Component_ModelCard x) (Component_Data x) (Component_CryptoProperties x) (Component_Tags x) (Component_IsExternal x) (Component_PatentAssertions x) (Component_VersionRange x) (Component_Signature x).
Definition set_Component_Properties (v : ptr (slice (Property))) (x : Component) : Component :=
  mkComponent (Component_BOMRef x) (Component_MIMEType x) (Component_Type x) (Component_Supplier x) (Component_Manufacturer x) (Component_Author x) (Component_Authors x) (Component_Publisher x) (Component_Group x) (Component_Name x) (Component_Version x) (Component_Description x) (Component_Scope x) (Component_Hashes x) (Component_Licenses x) (Component_Copyright x) (Component_CPE x) (Component_PackageURL x) (Component_OmniborID x) (Component_SWHID x) (Component_SWID x) (Component_Modified x) (Component_Pedigree x) (Component_ExternalReferences x) v (Component_Components x) (Component_Evidence x) (Component_ReleaseNotes x) (Component_ModelCard x) (Component_Data x) (Component_CryptoProperties x) (Component_Tags x) (Component_IsExternal x) (Component_PatentAssertions x) (Component_VersionRange x) (Component_Signature x).
Definition set_Component_Components (v : ptr (slice (Component))) (x : Component) : Component :=
  mkComponent (Component_BOMRef x) (Component_MIMEType x) (Component_Type x) (Component_Supplier x) (Component_Manufacturer x) (Component_Author x) (Component_Authors x) (Component_Publisher x) (Component_Group x) (Component_Name x) (Component_Version x) (Component_Description x) (Component_Scope x) (Component_Hashes x) (Component_Licenses x) (Component_Copyright x) (Component_CPE x) (Component_PackageURL x) (Component_OmniborID x) (Component_SWHID x) (Component_SWID x) (Component_Modified x) (Component_Pedigree x) (Component_ExternalReferences x) (Component_Properties x) v (Component_Evidence x) (Component_ReleaseNotes x) (Component_ModelCard x) (Component_Data x) (Component_CryptoProperties x) (Component_Tags x) (Component_IsExternal x) (Component_PatentAssertions x) (Component_VersionRange x) (Component_Signature x).
Definition set_Component_Evidence (v : ptr (Evidence)) (x : Component) : Component :=
  mkComponent (Component_BOMRef x) (Component_MIMEType x) (Component_Type x) (Component_Supplier x) (Component_Manufacturer x) (Component_Author x) (Component_Authors x) (Component_Publisher x) (Component_Group x) (Component_Name x) (Component_Version x) (Component_Description x) (Component_Scope x) (Component_Hashes x) (Component_Licenses x) (Component_Copyright x) (Component_CPE x) (Component_PackageURL x) (Component_OmniborID x) (Component_SWHID x) (Component_SWID x) (Component_Modified x) (Component_Pedigree x) (Component_ExternalReferences x) (Component_Properties x) (Component_Components x) v (Component_ReleaseNotes x) (Component_ModelCard x) (Component_Data x) (Component_CryptoProperties x) (Component_Tags x) (Component_IsExternal x) (Component_PatentAssertions x) (Component_VersionRange x) (Component_Signature x).
Definition set_Component_ReleaseNotes (v : ptr (ReleaseNotes)) (x : Component) : Component :=
  mkComponent (Component_BOMRef x) (Component_MIMEType x) (Component_Type x) (Component_Supplier x) (Component_Manufacturer x) (Component_Author x) (Component_Authors x) (Component_Publisher x) (Component_Group x) (Component_Name x) (Component_Version x) (Component_Description x) (Component_Scope x) (Component_Hashes x) (Component_Licenses x) (Component_Copyright x) (Component_CPE x) (Component_PackageURL x) (Component_OmniborID x) (Component_SWHID x) (Component_SWID x) (Component_Modified x) (Component_Pedigree x) (Component_ExternalReferences x) (Component_Properties x) (Component_Components x) (Component_Evidence x) v (Component_ModelCard x) (Component_Data x) (Component_CryptoProperties x) (Component_Tags x) (Component_IsExternal x) (Component_PatentAssertions x) (Component_VersionRange x) (Component_Signature x).
Definition set_Component_ModelCard (v : ptr (MLModelCard)) (x : Component) : Component :=
  mkComponent (Component_BOMRef x) (Component_MIMEType x) (Component_Type x) (Component_Supplier x) (Component_Manufacturer x) (Component_Author x) (Component_Authors x) (Component_Publisher x) (Component_Group x) (Component_Name x) (Component_Version x) (Component_Description x) (Component_Scope x) (Component_Hashes x) (Component_Licenses x) (Component_Copyright x) (Component_CPE x) (Component_PackageURL x) (Component_OmniborID x) (Component_SWHID x) (Component_SWID x) (Component_Modified x) (Component_Pedigree x) (Component_ExternalReferences x) (Component_Properties x) (Component_Components x) (Component_Evidence x) (Component_ReleaseNotes x) v (Component_Data x) (Component_CryptoProperties x) (Component_Tags x) (Component_IsExternal x) (Component_PatentAssertions x) (Component_VersionRange x) (Component_Signature x).
Definition set_Component_Data (v : ptr (slice (ComponentData))) (x : Component) : Component :=
  mkComponent (Component_BOMRef x) (Component_MIMEType x) (Component_Type x) (Component_Supplier x) (Component_Manufacturer x) (Component_Author x) (Component_Authors x) (Component_Publisher x) (Component_Group x) (Component_Name x) (Component_Version x) (Component_Description x) (Component_Scope x) (Component_Hashes x) (Component_Licenses x) (Component_Copyright x) (Component_CPE x) (Component_PackageURL x) (Component_OmniborID x) (Component_SWHID x) (Component_SWID x) (Component_Modified x) (Component_Pedigree x) (Component_ExternalReferences x) (Component_Properties x) (Component_Components x) (Component_Evidence x) (Component_ReleaseNotes x) (Component_ModelCard x) v (Component_CryptoProperties x) (Component_Tags x) (Component_IsExternal x) (Component_PatentAssertions x) (Component_VersionRange x) (Component_Signature x).
Definition set_Component_CryptoProperties (v : ptr (CryptoProperties)) (x : Component) : Component :=
  mkComponent (Component_BOMRef x) (Component_MIMEType x) (Component_Type x) (Component_Supplier x) (Component_Manufacturer x) (Component_Author x) (Component_Authors x) (Component_Publisher x) (Component_Group x) (Component_Name x) (Component_Version x) (Component_Description x) (Component_Scope x) (Component_Hashes x) (Component_Licenses x) (Component_Copyright x) (Component_CPE x) (Component_PackageURL x) (Component_OmniborID x) (Component_SWHID x) (Component_SWID x) (Component_Modified x) (Component_Pedigree x) (Component_ExternalReferences x) (Component_Properties x) (Component_Components x) (Component_Evidence x) (Component_ReleaseNotes x) (Component_ModelCard x) (Component_Data x) v (Component_Tags x) (Component_IsExternal x) (Component_PatentAssertions x) (Component_VersionRange x) (Component_Signature x).
Definition set_Component_Tags (v : ptr (slice (string))) (x : Component) : Component :=
  mkComponent (Component_BOMRef x) (Component_MIMEType x) (Component_Type x) (Component_Supplier x) (Component_Manufacturer x) (Component_Author x) (Component_Authors x) (Component_Publisher x) (Component_Group x) (Component_Name x) (Component_Version x) (Component_Description x) (Component_Scope x) (Component_Hashes x) (Component_Licenses x) (Component_Copyright x) (Component_CPE x) (Component_PackageURL x) (Component_OmniborID x) (Component_SWHID x) (Component_SWID x) (Component_Modified x) (Component_Pedigree x) (Component_ExternalReferences x) (Component_Properties x) (Component_Components x) (Component_Evidence x) (Component_ReleaseNotes x) (Component_ModelCard x) (Component_Data x) (Component_CryptoProperties x) v (Component_IsExternal x) (Component_PatentAssertions x) (Component_VersionRange x) (Component_Signature x).
Definition set_Component_IsExternal (v : ptr (bool)) (x : Component) : Component :=
  mkComponent (Component_BOMRef x) (Component_MIMEType x) (Component_Type x) (Component_Supplier x) (Component_Manufacturer x) (Component_Author x) (Component_Authors x) (Component_Publisher x) (Component_Group x) (Component_Name x) (Component_Version x) (Component_Description x) (Component_Scope x) (Component_Hashes x) (Component_Licenses x) (Component_Copyright x) (Component_CPE x) (Component_PackageURL x) (Component_OmniborID x) (Component_SWHID x) (Component_SWID x) (Component_Modified x) (Component_Pedigree x) (Component_ExternalReferences x) (Component_Properties x) (Component_Components x) (Component_Evidence x) (Component_ReleaseNotes x) (Component_ModelCard x) (Component_Data x) (Component_CryptoProperties x) (Component_Tags x) v (Component_PatentAssertions x) (Component_VersionRange x) (Component_Signature x).
Definition set_Component_PatentAssertions (v : ptr (slice (PatentAssertion))) (x : Component) : Component :=
  mkComponent (Component_BOMRef x) (Component_MIMEType x) (Component_Type x) (Component_Supplier x) (Component_Manufacturer x) (Component_Author x) (Component_Authors x) (Component_Publisher x) (Component_Group x) (Component_Name x) (Component_Version x) (Component_Description x) (Component_Scope x) (Component_Hashes x) (Component_Licenses x) (Component_Copyright x) (Component_CPE x) (Component_PackageURL x) (Component_OmniborID x) (Component_SWHID x) (Component_SWID x) (Component_Modified x) (Component_Pedigree x) (Component_ExternalReferences x) (Component_Properties x) (Component_Components x) (Component_Evidence x) (Component_ReleaseNotes x) (Component_ModelCard x) (Component_Data x) (Component_CryptoProperties x) (Component_Tags x) (Component_IsExternal x) v (Component_VersionRange x) (Component_Signature x).
Definition set_Component_VersionRange (v : string) (x : Component) : Component :=
  mkComponent (Component_BOMRef x) (Component_MIMEType x) (Component_Type x) (Component_Supplier x) (Component_Manufacturer x) (Component_Author x) (Component_Authors x) (Component_Publisher x) (Component_Group x) (Component_Name x) (Component_Version x) (Component_Description x) (Component_Scope x) (Component_Hashes x) (Component_Licenses x) (Component_Copyright x) (Component_CPE x) (Component_PackageURL x) (Component_OmniborID x) (Component_SWHID x) (Component_SWID x) (Component_Modified x) (Component_Pedigree x) (Component_ExternalReferences x) (Component_Properties x) (Component_Components x) (Component_Evidence x) (Component_ReleaseNotes x) (Component_ModelCard x) (Component_Data x) (Component_CryptoProperties x) (Component_Tags x) (Component_IsExternal x) (Component_PatentAssertions x) v (Component_Signature x).
Definition set_Component_Signature (v : ptr (JSFSignature)) (x : Component) : Component :=
  mkComponent (Component_BOMRef x) (Component_MIMEType x) (Component_Type x) (Component_Supplier x) (Component_Manufacturer x) (Component_Author x) (Component_Authors x) (Component_Publisher x) (Component_Group x) (Component_Name x) (Component_Version x) (Component_Description x) (Component_Scope x) (Component_Hashes x) (Component_Licenses x) (Component_Copyright x) (Component_CPE x) (Component_PackageURL x) (Component_OmniborID x) (Component_SWHID x) (Component_SWID x) (Component_Modified x) (Component_Pedigree x) (Component_ExternalReferences x) (Component_Properties x) (Component_Components x) (Component_Evidence x) (Component_ReleaseNotes x) (Component_ModelCard x) (Component_Data x) (Component_CryptoProperties x) (Component_Tags x) (Component_IsExternal x) (Component_PatentAssertions x) (Component_VersionRange x) v.
Definition over_Component_BOMRef (f : string -> string) (x : Component) : Component := set_Component_BOMRef (f (Component_BOMRef x)) x.
Definition over_Component_MIMEType (f : string -> string) (x : Component) : Component := set_Component_MIMEType (f (Component_MIMEType x)) x.
Definition over_Component_Type (f : ComponentType -> ComponentType) (x : Component) : Component := set_Component_Type (f (Component_Type x)) x.
Definition over_Component_Supplier (f : ptr (OrganizationalEntity) -> ptr (OrganizationalEntity)) (x : Component) : Component := set_Component_Supplier (f (Component_Supplier x)) x.
Definition over_Component_Manufacturer (f : ptr (OrganizationalEntity) -> ptr (OrganizationalEntity)) (x : Component) : Component := set_Component_Manufacturer (f (Component_Manufacturer x)) x.
Definition over_Component_Author (f : string -> string) (x : Component) : Component := set_Component_Author (f (Component_Author x)) x.
Definition over_Component_Authors (f : ptr (slice (OrganizationalContact)) -> ptr (slice (OrganizationalContact))) (x : Component) : Component := set_Component_Authors (f (Component_Authors x)) x.
Definition over_Component_Publisher (f : string -> string) (x : Component) : Component := set_Component_Publisher (f (Component_Publisher x)) x.
Definition over_Component_Group (f : string -> string) (x : Component) : Component := set_Component_Group (f (Component_Group x)) x.
Definition over_Component_Name (f : string -> string) (x : Component) : Component := set_Component_Name (f (Component_Name x)) x.
Definition over_Component_Version (f : string -> string) (x : Component) : Component := set_Component_Version (f (Component_Version x)) x.
Definition over_Component_Description (f : string -> string) (x : Component) : Component := set_Component_Description (f (Component_Description x)) x.
Definition over_Component_Scope (f : Scope -> Scope) (x : Component) : Component := set_Component_Scope (f (Component_Scope x)) x.
Definition over_Component_Hashes (f : ptr (slice (Hash)) -> ptr (slice (Hash))) (x : Component) : Component := set_Component_Hashes (f (Component_Hashes x)) x.
Definition over_Component_Licenses (f : ptr (Licenses) -> ptr (Licenses)) (x : Component) : Component := set_Component_Licenses (f (Component_Licenses x)) x.
Definition over_Component_Copyright (f : string -> string) (x : Component) : Component := set_Component_Copyright (f (Component_Copyright x)) x.
Definition over_Component_CPE (f : string -> string) (x : Component) : Component := set_Component_CPE (f (Component_CPE x)) x.
Definition over_Component_PackageURL (f : string -> string) (x : Component) : Component := set_Component_PackageURL (f (Component_PackageURL x)) x.
Definition over_Component_OmniborID (f : ptr (slice (string)) -> ptr (slice (string))) (x : Component) : Component := set_Component_OmniborID (f (Component_OmniborID x)) x.
Definition over_Component_SWHID (f : ptr (slice (string)) -> ptr (slice (string))) (x : Component) : Component := set_Component_SWHID (f (Component_SWHID x)) x.
Definition over_Component_SWID (f : ptr (SWID) -> ptr (SWID)) (x : Component) : Component := set_Component_SWID (f (Component_SWID x)) x.
Definition over_Component_Modified (f : ptr (bool) -> ptr (bool)) (x : Component) : Component := set_Component_Modified (f (Component_Modified x)) x.
Definition over_Component_Pedigree (f : ptr (Pedigree_ Component) -> ptr (Pedigree_ Component)) (x : Component) : Component := set_Component_Pedigree (f (Component_Pedigree x)) x.
Definition over_Component_ExternalReferences (f : ptr (slice (ExternalReference)) -> ptr (slice (ExternalReference))) (x : Component) : Component := set_Component_ExternalReferences (f (Component_ExternalReferences x)) x.
Definition over_Component_Properties (f : ptr (slice (Property)) -> ptr (slice (Property))) (x : Component) : Component := set_Component_Properties (f (Component_Properties x)) x.
Definition over_Component_Components (f : ptr (slice (Component)) -> ptr (slice (Component))) (x : Component) : Component := set_Component_Components (f (Component_Components x)) x.
Definition over_Component_Evidence (f : ptr (Evidence) -> ptr (Evidence)) (x : Component) : Component := set_Component_Evidence (f (Component_Evidence x)) x.
Definition over_Component_ReleaseNotes (f : ptr (ReleaseNotes) -> ptr (ReleaseNotes)) (x : Component) : Component := set_Component_ReleaseNotes (f (Component_ReleaseNotes x)) x.
Definition over_Component_ModelCard (f : ptr (MLModelCard) -> ptr (MLModelCard)) (x : Component) : Component := set_Component_ModelCard (f (Component_ModelCard x)) x.
Definition over_Component_Data (f : ptr (slice (ComponentData)) -> ptr (slice (ComponentData))) (x : Component) : Component := set_Component_Data (f (Component_Data x)) x.
Definition over_Component_CryptoProperties (f : ptr (CryptoProperties) -> ptr (CryptoProperties)) (x : Component) : Component := set_Component_CryptoProperties (f (Component_CryptoProperties x)) x.
Definition over_Component_Tags (f : ptr (slice (string)) -> ptr (slice (string))) (x : Component) : Component := set_Component_Tags (f (Component_Tags x)) x.
Definition over_Component_IsExternal (f : ptr (bool) -> ptr (bool)) (x : Component) : Component := set_Component_IsExternal (f (Component_IsExternal x)) x.
Definition over_Component_PatentAssertions (f : ptr (slice (PatentAssertion)) -> ptr (slice (PatentAssertion))) (x : Component) : Component := set_Component_PatentAssertions (f (Component_PatentAssertions x)) x.
Definition over_Component_VersionRange (f : string -> string) (x : Component) : Component := set_Component_VersionRange (f (Component_VersionRange x)) x.
Definition over_Component_Signature (f : ptr (JSFSignature) -> ptr (JSFSignature)) (x : Component) : Component := set_Component_Signature (f (Component_Signature x)) x.
Definition zero_Component : Component := mkComponent ("") ("") ("") (None) (None) ("") (None) ("") ("") ("") ("") ("") ("") (None) (None) ("") ("") ("") (None) (None) (None) (None) (None) (None) (None) (None) (None) (None) (None) (None) (None) (None) (None) (None) ("") (None).
Definition Pedigree := Pedigree_ Component.

(** /repo/cyclonedx.go:551-559 *)
Record DataClassification := mkDataClassification {
  DataClassification_Flow : DataFlow;
  DataClassification_Classification : string;
  DataClassification_Name : string;
  DataClassification_Description : string;
  DataClassification_Governance : ptr (DataGovernance);
  DataClassification_Source : ptr (slice (string));
  DataClassification_Destination : ptr (slice (string))
}.
Definition set_DataClassification_Flow (v : DataFlow) (x : DataClassification) : DataClassification :=
  mkDataClassification v (DataClassification_Classification x) (DataClassification_Name x) (DataClassification_Description x) (DataClassification_Governance x) (DataClassification_Source x) (DataClassification_Destination x).
Definition set_DataClassification_Classification (v : string) (x : DataClassification) : DataClassification :=
  mkDataClassification (DataClassification_Flow x) v (DataClassification_Name x) (DataClassification_Description x) (DataClassification_Governance x) (DataClassification_Source x) (DataClassification_Destination x).
Definition set_DataClassification_Name (v : string) (x : DataClassification) : DataClassification :=
  mkDataClassification (DataClassification_Flow x) (DataClassification_Classification x) v (DataClassification_Description x) (DataClassification_Governance x) (DataClassification_Source x) (DataClassification_Destination x).
Definition set_DataClassification_Description (v : string) (x : DataClassification) : DataClassification :=
  mkDataClassification (DataClassification_Flow x) (DataClassification_Classification x) (DataClassification_Name x) v (DataClassification_Governance x) (DataClassification_Source x) (DataClassification_Destination x).
Definition set_DataClassification_Governance (v : ptr (DataGovernance)) (x : DataClassification) : DataClassification :=
  mkDataClassification (DataClassification_Flow x) (DataClassification_Classification x) (DataClassification_Name x) (DataClassification_Description x) v (DataClassification_Source x) (DataClassification_Destination x).
Definition set_DataClassification_Source (v : ptr (slice (string))) (x : DataClassification) : DataClassification :=
  mkDataClassification (DataClassification_Flow x) (DataClassification_Classification x) (DataClassification_Name x) (DataClassification_Description x) (DataClassification_Governance x) v (DataClassification_Destination x).
Definition set_DataClassification_Destination (v : ptr (slice (string))) (x : DataClassification) : DataClassification :=
  mkDataClassification (DataClassification_Flow x) (DataClassification_Classification x) (DataClassification_Name x) (DataClassification_Description x) (DataClassification_Governance x) (DataClassification_Source x) v.
Definition over_DataClassification_Flow (f : DataFlow -> DataFlow) (x : DataClassification) : DataClassification := set_DataClassification_Flow (f (DataClassification_Flow x)) x.
Definition over_DataClassification_Classification (f : string -> string) (x : DataClassification) : DataClassification := set_DataClassification_Classification (f (DataClassification_Classification x)) x.
Definition over_DataClassification_Name (f : string -> string) (x : DataClassification) : DataClassification := set_DataClassification_Name (f (DataClassification_Name x)) x.
Definition over_DataClassification_Description (f : string -> string) (x : DataClassification) : DataClassification := set_DataClassification_Description (f (DataClassification_Description x)) x.
Definition over_DataClassification_Governance (f : ptr (DataGovernance) -> ptr (DataGovernance)) (x : DataClassification) : DataClassification := set_DataClassification_Governance (f (DataClassification_Governance x)) x.
Definition over_DataClassification_Source (f : ptr (slice (string)) -> ptr (slice (string))) (x : DataClassification) : DataClassification := set_DataClassification_Source (f (DataClassification_Source x)) x.
Definition over_DataClassification_Destination (f : ptr (slice (string)) -> ptr (slice (string))) (x : DataClassification) : DataClassification := set_DataClassification_Destination (f (DataClassification_Destination x)) x.
Definition zero_DataClassification : DataClassification := mkDataClassification ("") ("") ("") ("") (None) (None) (None).

(** /repo/cyclonedx.go:1362-1382 *)
Inductive Service := mkService {
  Service_BOMRef : string;
  Service_Provider : ptr (OrganizationalEntity);
  Service_Group : string;
  Service_Name : string;
  Service_Version : string;
  Service_Description : string;
  Service_Endpoints : ptr (slice (string));
  Service_Authenticated : ptr (bool);
  Service_CrossesTrustBoundary : ptr (bool);
  Service_Data : ptr (slice (DataClassification));
  Service_Licenses : ptr (Licenses);
  Service_ExternalReferences : ptr (slice (ExternalReference));
  Service_Properties : ptr (slice (Property));
  Service_Services : ptr (slice (Service));
  Service_ReleaseNotes : ptr (ReleaseNotes);
  Service_Tags : ptr (slice (string));
  Service_TrustZone : string;
  Service_PatentAssertions : ptr (slice (PatentAssertion));
  Service_Signature : ptr (JSFSignature)
}.
Definition set_Service_BOMRef (v : string) (x : Service) : Service :=
  mkService v (Service_Provider x) (Service_Group x) (Service_Name x) (Service_Version x) (Service_Description x) (Service_Endpoints x) (Service_Authenticated x) (Service_CrossesTrustBoundary x) (Service_Data x) (Service_Licenses x) (Service_ExternalReferences x) (Service_Properties x) (Service_Services x) (Service_ReleaseNotes x) (Service_Tags x) (Service_TrustZone x) (Service_PatentAssertions x) (Service_Signature x).
Definition set_Service_Provider (v : ptr (OrganizationalEntity)) (x : Service) : Service :=
  mkService (Service_BOMRef x) v (Service_Group x) (Service_Name x) (Service_Version x) (Service_Description x) (Service_Endpoints x) (Service_Authenticated x) (Service_CrossesTrustBoundary x) (Service_Data x) (Service_Licenses x) (Service_ExternalReferences x) (Service_Properties x) (Service_Services x) (Service_ReleaseNotes x) (Service_Tags x) (Service_TrustZone x) (Service_PatentAssertions x) (Service_Signature x).
Definition set_Service_Group (v : string) (x : Service) : Service :=
  mkService (Service_BOMRef x) (Service_Provider x) v (Service_Name x) (Service_Version x) (Service_Description x) (Service_Endpoints x) (Service_Authenticated x) (Service_CrossesTrustBoundary x) (Service_Data x) (Service_Licenses x) (Service_ExternalReferences x) (Service_Properties x) (Service_Services x) (Service_ReleaseNotes x) (Service_Tags x) (Service_TrustZone x) (Service_PatentAssertions x) (Service_Signature x).
Definition set_Service_Name (v : string) (x : Service) : Service :=
  mkService (Service_BOMRef x) (Service_Provider x) (Service_Group x) v (Service_Version x) (Service_Description x) (Service_Endpoints x) (Service_Authenticated x) (Service_CrossesTrustBoundary x) (Service_Data x) (Service_Licenses x) (Service_ExternalReferences x) (Service_Properties x) (Service_Services x) (Service_ReleaseNotes x) (Service_Tags x) (Service_TrustZone x) (Service_PatentAssertions x) (Service_Signature x).
Definition set_Service_Version (v : string) (x : Service) : Service :=
  mkService (Service_BOMRef x) (Service_Provider x) (Service_Group x) (Service_Name x) v (Service_Description x) (Service_Endpoints x) (Service_Authenticated x) (Service_CrossesTrustBoundary x) (Service_Data x) (Service_Licenses x) (Service_ExternalReferences x) (Service_Properties x) (Service_Services x) (Service_ReleaseNotes x) (Service_Tags x) (Service_TrustZone x) (Service_PatentAssertions x) (Service_Signature x).
Definition set_Service_Description (v : string) (x : Service) : Service :=
  mkService (Service_BOMRef x) (Service_Provider x) (Service_Group x) (Service_Name x) (Service_Version x) v (Service_Endpoints x) (Service_Authenticated x) (Service_CrossesTrustBoundary x) (Service_Data x) (Service_Licenses x) (Service_ExternalReferences x) (Service_Properties x) (Service_Services x) (Service_ReleaseNotes x) (Service_Tags x) (Service_TrustZone x) (Service_PatentAssertions x) (Service_Signature x).
Definition set_Service_Endpoints (v : ptr (slice (string))) (x : Service) : Service :=
  mkService (Service_BOMRef x) (Service_Provider x) (Service_Group x) (Service_Name x) (Service_Version x) (Service_Description x) v (Service_Authenticated x) (Service_CrossesTrustBoundary x) (Service_Data x) (Service_Licenses x) (Service_ExternalReferences x) (Service_Properties x) (Service_Services x) (Service_ReleaseNotes x) (Service_Tags x) (Service_TrustZone x) (Service_PatentAssertions x) (Service_Signature x).
Definition set_Service_Authenticated (v : ptr (bool)) (x : Service) : Service :=
  mkService (Service_BOMRef x) (Service_Provider x) (Service_Group x) (Service_Name x) (Service_Version x) (Service_Description x) (Service_Endpoints x) v (Service_CrossesTrustBoundary x) (Service_Data x) (Service_Licenses x) (Service_ExternalReferences x) (Service_Properties x) (Service_Services x) (Service_ReleaseNotes x) (Service_Tags x) (Service_TrustZone x) (Service_PatentAssertions x) (Service_Signature x).
Definition set_Service_CrossesTrustBoundary (v : ptr (bool)) (x : Service) : Service :=
  mkService (Service_BOMRef x) (Service_Provider x) (Service_Group x) (Service_Name x) (Service_Version x) (Service_Description x) (Service_Endpoints x) (Service_Authenticated x) v (Service_Data x) (Service_Licenses x) (Service_ExternalReferences x) (Service_Properties x) (Service_Services x) (Service_ReleaseNotes x) (Service_Tags x) (Service_TrustZone x) (Service_PatentAssertions x) (Service_Signature x).
Definition set_Service_Data (v : ptr (slice (DataClassification))) (x : Service) : Service :=
  mkService (Service_BOMRef x) (Service_Provider x) (Service_Group x) (Service_Name x) (Service_Version x) (Service_Description x) (Service_Endpoints x) (Service_Authenticated x) (Service_CrossesTrustBoundary x) v (Service_Licenses x) (Service_ExternalReferences x) (Service_Properties x) (Service_Services x) (Service_ReleaseNotes x) (Service_Tags x) (Service_TrustZone x) (Service_PatentAssertions x) (Service_Signature x).
Definition set_Service_Licenses (v : ptr (Licenses)) (x : Service) : Service :=
  mkService (Service_BOMRef x) (Service_Provider x) (Service_Group x) (Service_Name x) (Service_Version x) (Service_Description x) (Service_Endpoints x) (Service_Authenticated x) (Service_CrossesTrustBoundary x) (Service_Data x) v (Service_ExternalReferences x) (Service_Properties x) (Service_Services x) (Service_ReleaseNotes x) (Service_Tags x) (Service_TrustZone x) (Service_PatentAssertions x) (Service_Signature x).
Definition set_Service_ExternalReferences (v : ptr (slice (ExternalReference))) (x : Service) : Service :=
  mkService (Service_BOMRef x) (Service_Provider x) (Service_Group x) (Service_Name x) (Service_Version x) (Service_Description x) (Service_Endpoints x) (Service_Authenticated x) (Service_CrossesTrustBoundary x) (Service_Data x) (Service_Licenses x) v (Service_Properties x) (Service_Services x) (Service_ReleaseNotes x) (Service_Tags x) (Service_TrustZone x) (Service_PatentAssertions x) (Service_Signature x).
Definition set_Service_Properties (v : ptr (slice (Property))) (x : Service) : Service :=
  mkService (Service_BOMRef x) (Service_Provider x) (Service_Group x) (Service_Name x) (Service_Version x) (Service_Description x) (Service_Endpoints x) (Service_Authenticated x) (Service_CrossesTrustBoundary x) (Service_Data x) (Service_Licenses x) (Service_ExternalReferences x) v (Service_Services x) (Service_ReleaseNotes x) (Service_Tags x) (Service_TrustZone x) (Service_PatentAssertions x) (Service_Signature x).
Definition set_Service_Services (v : ptr (slice (Service))) (x : Service) : Service :=
  mkService (Service_BOMRef x) (Service_Provider x) (Service_Group x) (Service_Name x) (Service_Version x) (Service_Description x) (Service_Endpoints x) (Service_Authenticated x) (Service_CrossesTrustBoundary x) (Service_Data x) (Service_Licenses x) (Service_ExternalReferences x) (Service_Properties x) v (Service_ReleaseNotes x) (Service_Tags x) (Service_TrustZone x) (Service_PatentAssertions x) (Service_Signature x).
Definition set_Service_ReleaseNotes (v : ptr (ReleaseNotes)) (x : Service) : Service :=
  mkService (Service_BOMRef x) (Service_Provider x) (Service_Group x) (Service_Name x) (Service_Version x) (Service_Description x) (Service_Endpoints x) (Service_Authenticated x) (Service_CrossesTrustBoundary x) (Service_Data x) (Service_Licenses x) (Service_ExternalReferences x) (Service_Properties x) (Service_Services x) v (Service_Tags x) (Service_TrustZone x) (Service_PatentAssertions x) (Service_Signature x).
Definition set_Service_Tags (v : ptr (slice (string))) (x : Service) : Service :=
  mkService (Service_BOMRef x) (Service_Provider x) (Service_Group x) (Service_Name x) (Service_Version x) (Service_Description x) (Service_Endpoints x) (Service_Authenticated x) (Service_CrossesTrustBoundary x) (Service_Data x) (Service_Licenses x) (Service_ExternalReferences x) (Service_Properties x) (Service_Services x) (Service_ReleaseNotes x) v (Service_TrustZone x) (Service_PatentAssertions x) (Service_Signature x).
Definition set_Service_TrustZone (v : string) (x : Service) : Service :=
  mkService (Service_BOMRef x) (Service_Provider x) (Service_Group x) (Service_Name x) (Service_Version x) (Service_Description x) (Service_Endpoints x) (Service_Authenticated x) (Service_CrossesTrustBoundary x) (Service_Data x) (Service_Licenses x) (Service_ExternalReferences x) (Service_Properties x) (Service_Services x) (Service_ReleaseNotes x) (Service_Tags x) v (Service_PatentAssertions x) (Service_Signature x).
Definition set_Service_PatentAssertions (v : ptr (slice (PatentAssertion))) (x : Service) : Service :=
  mkService (Service_BOMRef x) (Service_Provider x) (Service_Group x) (Service_Name x) (Service_Version x) (Service_Description x) (Service_Endpoints x) (Service_Authenticated x) (Service_CrossesTrustBoundary x) (Service_Data x) (Service_Licenses x) (Service_ExternalReferences x) (Service_Properties x) (Service_Services x) (Service_ReleaseNotes x) (Service_Tags x) (Service_TrustZone x) v (Service_Signature x).
Definition set_Service_Signature (v : ptr (JSFSignature)) (x : Service) : Service :=
  mkService (Service_BOMRef x) (Service_Provider x) (Service_Group x) (Service_Name x) (Service_Version x) (Service_Description x) (Service_Endpoints x) (Service_Authenticated x) (Service_CrossesTrustBoundary x) (Service_Data x) (Service_Licenses x) (Service_ExternalReferences x) (Service_Properties x) (Service_Services x) (Service_ReleaseNotes x) (Service_Tags x) (Service_TrustZone x) (Service_PatentAssertions x) v.
Definition over_Service_BOMRef (f : string -> string) (x : Service) : Service := set_Service_BOMRef (f (Service_BOMRef x)) x.
Definition over_Service_Provider (f : ptr (OrganizationalEntity) -> ptr (OrganizationalEntity)) (x : Service) : Service := set_Service_Provider (f (Service_Provider x)) x.
Definition over_Service_Group (f : string -> string) (x : Service) : Service := set_Service_Group (f (Service_Group x)) x.
Definition over_Service_Name (f : string -> string) (x : Service) : Service := set_Service_Name (f (Service_Name x)) x.
Definition over_Service_Version (f : string -> string) (x : Service) : Service := set_Service_Version (f (Service_Version x)) x.
Definition over_Service_Description (f : string -> string) (x : Service) : Service := set_Service_Description (f (Service_Description x)) x.
Definition over_Service_Endpoints (f : ptr (slice (string)) -> ptr (slice (string))) (x : Service) : Service := set_Service_Endpoints (f (Service_Endpoints x)) x.
Definition over_Service_Authenticated (f : ptr (bool) -> ptr (bool)) (x : Service) : Service := set_Service_Authenticated (f (Service_Authenticated x)) x.
Definition over_Service_CrossesTrustBoundary (f : ptr (bool) -> ptr (bool)) (x : Service) : Service := set_Service_CrossesTrustBoundary (f (Service_CrossesTrustBoundary x)) x.
Definition over_Service_Data (f : ptr (slice (DataClassification)) -> ptr (slice (DataClassification))) (x : Service) : Service := set_Service_Data (f (Service_Data x)) x.
Definition over_Service_Licenses (f : ptr (Licenses) -> ptr (Licenses)) (x : Service) : Service := set_Service_Licenses (f (Service_Licenses x)) x.
Definition over_Service_ExternalReferences (f : ptr (slice (ExternalReference)) -> ptr (slice (ExternalReference))) (x : Service) : Service := set_Service_ExternalReferences (f (Service_ExternalReferences x)) x.
Definition over_Service_Properties (f : ptr (slice (Property)) -> ptr (slice (Property))) (x : Service) : Service := set_Service_Properties (f (Service_Properties x)) x.
Definition over_Service_Services (f : ptr (slice (Service)) -> ptr (slice (Service))) (x : Service) : Service := set_Service_Services (f (Service_Services x)) x.
Definition over_Service_ReleaseNotes (f : ptr (ReleaseNotes) -> ptr (ReleaseNotes)) (x : Service) : Service := set_Service_ReleaseNotes (f (Service_ReleaseNotes x)) x.
Definition over_Service_Tags (f : ptr (slice (string)) -> ptr (slice (string))) (x : Service) : Service := set_Service_Tags (f (Service_Tags x)) x.
Definition over_Service_TrustZone (f : string -> string) (x : Service) : Service := set_Service_TrustZone (f (Service_TrustZone x)) x.
Definition over_Service_PatentAssertions (f : ptr (slice (PatentAssertion)) -> ptr (slice (PatentAssertion))) (x : Service) : Service := set_Service_PatentAssertions (f (Service_PatentAssertions x)) x.
Definition over_Service_Signature (f : ptr (JSFSignature) -> ptr (JSFSignature)) (x : Service) : Service := set_Service_Signature (f (Service_Signature x)) x.
Definition zero_Service : Service := mkService ("") (None) ("") ("") ("") ("") (None) (None) (None) (None) (None) (None) (None) (None) (None) (None) ("") (None) (None).

(** /repo/cyclonedx.go:60-65 *)
Record Annotator := mkAnnotator {
  Annotator_Organization : ptr (OrganizationalEntity);
  Annotator_Individual : ptr (OrganizationalContact);
  Annotator_Component : ptr (Component);
  Annotator_Service : ptr (Service)
}.
Definition set_Annotator_Organization (v : ptr (OrganizationalEntity)) (x : Annotator) : Annotator :=
  mkAnnotator v (Annotator_Individual x) (Annotator_Component x) (Annotator_Service x).
Definition set_Annotator_Individual (v : ptr (OrganizationalContact)) (x : Annotator) : Annotator :=
  mkAnnotator (Annotator_Organization x) v (Annotator_Component x) (Annotator_Service x).
Definition set_Annotator_Component (v : ptr (Component)) (x : Annotator) : Annotator :=
  mkAnnotator (Annotator_Organization x) (Annotator_Individual x) v (Annotator_Service x).
Definition set_Annotator_Service (v : ptr (Service)) (x : Annotator) : Annotator :=
  mkAnnotator (Annotator_Organization x) (Annotator_Individual x) (Annotator_Component x) v.
Definition over_Annotator_Organization (f : ptr (OrganizationalEntity) -> ptr (OrganizationalEntity)) (x : Annotator) : Annotator := set_Annotator_Organization (f (Annotator_Organization x)) x.
Definition over_Annotator_Individual (f : ptr (OrganizationalContact) -> ptr (OrganizationalContact)) (x : Annotator) : Annotator := set_Annotator_Individual (f (Annotator_Individual x)) x.
Definition over_Annotator_Component (f : ptr (Component) -> ptr (Component)) (x : Annotator) : Annotator := set_Annotator_Component (f (Annotator_Component x)) x.
Definition over_Annotator_Service (f : ptr (Service) -> ptr (Service)) (x : Annotator) : Annotator := set_Annotator_Service (f (Annotator_Service x)) x.
Definition zero_Annotator : Annotator := mkAnnotator (None) (None) (None) (None).

(** /repo/cyclonedx.go:51-58 *)
Record Annotation := mkAnnotation {
  Annotation_BOMRef : string;
  Annotation_Subjects : ptr (slice (BOMReference));
  Annotation_Annotator : ptr (Annotator);
  Annotation_Timestamp : string;
  Annotation_Text : string;
  Annotation_Signature : ptr (JSFSignature)
}.
Definition set_Annotation_BOMRef (v : string) (x : Annotation) : Annotation :=
  mkAnnotation v (Annotation_Subjects x) (Annotation_Annotator x) (Annotation_Timestamp x) (Annotation_Text x) (Annotation_Signature x).
Definition set_Annotation_Subjects (v : ptr (slice (BOMReference))) (x : Annotation) : Annotation :=
  mkAnnotation (Annotation_BOMRef x) v (Annotation_Annotator x) (Annotation_Timestamp x) (Annotation_Text x) (Annotation_Signature x).
Definition set_Annotation_Annotator (v : ptr (Annotator)) (x : Annotation) : Annotation :=
  mkAnnotation (Annotation_BOMRef x) (Annotation_Subjects x) v (Annotation_Timestamp x) (Annotation_Text x) (Annotation_Signature x).
Definition set_Annotation_Timestamp (v : string) (x : Annotation) : Annotation :=
  mkAnnotation (Annotation_BOMRef x) (Annotation_Subjects x) (Annotation_Annotator x) v (Annotation_Text x) (Annotation_Signature x).
Definition set_Annotation_Text (v : string) (x : Annotation) : Annotation :=
  mkAnnotation (Annotation_BOMRef x) (Annotation_Subjects x) (Annotation_Annotator x) (Annotation_Timestamp x) v (Annotation_Signature x).
Definition set_Annotation_Signature (v : ptr (JSFSignature)) (x : Annotation) : Annotation :=
  mkAnnotation (Annotation_BOMRef x) (Annotation_Subjects x) (Annotation_Annotator x) (Annotation_Timestamp x) (Annotation_Text x) v.
Definition over_Annotation_BOMRef (f : string -> string) (x : Annotation) : Annotation := set_Annotation_BOMRef (f (Annotation_BOMRef x)) x.
Definition over_Annotation_Subjects (f : ptr (slice (BOMReference)) -> ptr (slice (BOMReference))) (x : Annotation) : Annotation := set_Annotation_Subjects (f (Annotation_Subjects x)) x.
Definition over_Annotation_Annotator (f : ptr (Annotator) -> ptr (Annotator)) (x : Annotation) : Annotation := set_Annotation_Annotator (f (Annotation_Annotator x)) x.
Definition over_Annotation_Timestamp (f : string -> string) (x : Annotation) : Annotation := set_Annotation_Timestamp (f (Annotation_Timestamp x)) x.
Definition over_Annotation_Text (f : string -> string) (x : Annotation) : Annotation := set_Annotation_Text (f (Annotation_Text x)) x.
Definition over_Annotation_Signature (f : ptr (JSFSignature) -> ptr (JSFSignature)) (x : Annotation) : Annotation := set_Annotation_Signature (f (Annotation_Signature x)) x.
Definition zero_Annotation : Annotation := mkAnnotation ("") (None) (None) ("") ("") (None).

(** /repo/cyclonedx.go:67-71 *)
Record Assessor := mkAssessor {
  Assessor_BOMRef : BOMReference;
  Assessor_ThirdParty : bool;
  Assessor_Organization : ptr (OrganizationalEntity)
}.
Definition set_Assessor_BOMRef (v : BOMReference) (x : Assessor) : Assessor :=
  mkAssessor v (Assessor_ThirdParty x) (Assessor_Organization x).
Definition set_Assessor_ThirdParty (v : bool) (x : Assessor) : Assessor :=
  mkAssessor (Assessor_BOMRef x) v (Assessor_Organization x).
Definition set_Assessor_Organization (v : ptr (OrganizationalEntity)) (x : Assessor) : Assessor :=
  mkAssessor (Assessor_BOMRef x) (Assessor_ThirdParty x) v.
Definition over_Assessor_BOMRef (f : BOMReference -> BOMReference) (x : Assessor) : Assessor := set_Assessor_BOMRef (f (Assessor_BOMRef x)) x.
Definition over_Assessor_ThirdParty (f : bool -> bool) (x : Assessor) : Assessor := set_Assessor_ThirdParty (f (Assessor_ThirdParty x)) x.
Definition over_Assessor_Organization (f : ptr (OrganizationalEntity) -> ptr (OrganizationalEntity)) (x : Assessor) : Assessor := set_Assessor_Organization (f (Assessor_Organization x)) x.
Definition zero_Assessor : Assessor := mkAssessor ("") (false) (None).

(** /repo/cyclonedx.go:94-98 *)
Record AttestationConformance := mkAttestationConformance {
  AttestationConformance_Score : ptr (gofloat);
  AttestationConformance_Rationale : string;
  AttestationConformance_MitigationStrategies : ptr (slice (BOMReference))
}.
Definition set_AttestationConformance_Score (v : ptr (gofloat)) (x : AttestationConformance) : AttestationConformance :=
  mkAttestationConformance v (AttestationConformance_Rationale x) (AttestationConformance_MitigationStrategies x).
Definition set_AttestationConformance_Rationale (v : string) (x : AttestationConformance) : AttestationConformance :=
  mkAttestationConformance (AttestationConformance_Score x) v (AttestationConformance_MitigationStrategies x).
Definition set_AttestationConformance_MitigationStrategies (v : ptr (slice (BOMReference))) (x : AttestationConformance) : AttestationConformance :=
  mkAttestationConformance (AttestationConformance_Score x) (AttestationConformance_Rationale x) v.
Definition over_AttestationConformance_Score (f : ptr (gofloat) -> ptr (gofloat)) (x : AttestationConformance) : AttestationConformance := set_AttestationConformance_Score (f (AttestationConformance_Score x)) x.
Definition over_AttestationConformance_Rationale (f : string -> string) (x : AttestationConformance) : AttestationConformance := set_AttestationConformance_Rationale (f (AttestationConformance_Rationale x)) x.
Definition over_AttestationConformance_MitigationStrategies (f : ptr (slice (BOMReference)) -> ptr (slice (BOMReference))) (x : AttestationConformance) : AttestationConformance := set_AttestationConformance_MitigationStrategies (f (AttestationConformance_MitigationStrategies x)) x.
Definition zero_AttestationConformance : AttestationConformance := mkAttestationConformance (None) ("") (None).

(** /repo/cyclonedx.go:100-103 *)
Record AttestationConfidence := mkAttestationConfidence {
  AttestationConfidence_Score : ptr (gofloat);
  AttestationConfidence_Rationale : string
}.
Definition set_AttestationConfidence_Score (v : ptr (gofloat)) (x : AttestationConfidence) : AttestationConfidence :=
  mkAttestationConfidence v (AttestationConfidence_Rationale x).
Definition set_AttestationConfidence_Rationale (v : string) (x : AttestationConfidence) : AttestationConfidence :=
  mkAttestationConfidence (AttestationConfidence_Score x) v.
Definition over_AttestationConfidence_Score (f : ptr (gofloat) -> ptr (gofloat)) (x : AttestationConfidence) : AttestationConfidence := set_AttestationConfidence_Score (f (AttestationConfidence_Score x)) x.
Definition over_AttestationConfidence_Rationale (f : string -> string) (x : AttestationConfidence) : AttestationConfidence := set_AttestationConfidence_Rationale (f (AttestationConfidence_Rationale x)) x.
Definition zero_AttestationConfidence : AttestationConfidence := mkAttestationConfidence (None) ("").

(** /repo/cyclonedx.go:86-92 *)
Record AttestationMap := mkAttestationMap {
  AttestationMap_Requirement : string;
  AttestationMap_Claims : ptr (slice (BOMReference));
  AttestationMap_CounterClaims : ptr (slice (BOMReference));
  AttestationMap_Conformance : ptr (AttestationConformance);
  AttestationMap_Confidence : ptr (AttestationConfidence)
}.
Definition set_AttestationMap_Requirement (v : string) (x : AttestationMap) : AttestationMap :=
  mkAttestationMap v (AttestationMap_Claims x) (AttestationMap_CounterClaims x) (AttestationMap_Conformance x) (AttestationMap_Confidence x).
Definition set_AttestationMap_Claims (v : ptr (slice (BOMReference))) (x : AttestationMap) : AttestationMap :=
  mkAttestationMap (AttestationMap_Requirement x) v (AttestationMap_CounterClaims x) (AttestationMap_Conformance x) (AttestationMap_Confidence x).
Definition set_AttestationMap_CounterClaims (v : ptr (slice (BOMReference))) (x : AttestationMap) : AttestationMap :=
  mkAttestationMap (AttestationMap_Requirement x) (AttestationMap_Claims x) v (AttestationMap_Conformance x) (AttestationMap_Confidence x).
Definition set_AttestationMap_Conformance (v : ptr (AttestationConformance)) (x : AttestationMap) : AttestationMap :=
  mkAttestationMap (AttestationMap_Requirement x) (AttestationMap_Claims x) (AttestationMap_CounterClaims x) v (AttestationMap_Confidence x).
Definition set_AttestationMap_Confidence (v : ptr (AttestationConfidence)) (x : AttestationMap) : AttestationMap :=
  mkAttestationMap (AttestationMap_Requirement x) (AttestationMap_Claims x) (AttestationMap_CounterClaims x) (AttestationMap_Conformance x) v.
Definition over_AttestationMap_Requirement (f : string -> string) (x : AttestationMap) : AttestationMap := set_AttestationMap_Requirement (f (AttestationMap_Requirement x)) x.
Definition over_AttestationMap_Claims (f : ptr (slice (BOMReference)) -> ptr (slice (BOMReference))) (x : AttestationMap) : AttestationMap := set_AttestationMap_Claims (f (AttestationMap_Claims x)) x.
Definition over_AttestationMap_CounterClaims (f : ptr (slice (BOMReference)) -> ptr (slice (BOMReference))) (x : AttestationMap) : AttestationMap := set_AttestationMap_CounterClaims (f (AttestationMap_CounterClaims x)) x.
Definition over_AttestationMap_Conformance (f : ptr (AttestationConformance) -> ptr (AttestationConformance)) (x : AttestationMap) : AttestationMap := set_AttestationMap_Conformance (f (AttestationMap_Conformance x)) x.
Definition over_AttestationMap_Confidence (f : ptr (AttestationConfidence) -> ptr (AttestationConfidence)) (x : AttestationMap) : AttestationMap := set_AttestationMap_Confidence (f (AttestationMap_Confidence x)) x.
Definition zero_AttestationMap : AttestationMap := mkAttestationMap ("") (None) (None) (None) (None).

(** /repo/cyclonedx.go:79-84 *)
Record Attestation := mkAttestation {
  Attestation_Summary : string;
  Attestation_Assessor : BOMReference;
  Attestation_Map : ptr (slice (AttestationMap));
  Attestation_Signature : ptr (JSFSignature)
}.
Definition set_Attestation_Summary (v : string) (x : Attestation) : Attestation :=
  mkAttestation v (Attestation_Assessor x) (Attestation_Map x) (Attestation_Signature x).
Definition set_Attestation_Assessor (v : BOMReference) (x : Attestation) : Attestation :=
  mkAttestation (Attestation_Summary x) v (Attestation_Map x) (Attestation_Signature x).
Definition set_Attestation_Map (v : ptr (slice (AttestationMap))) (x : Attestation) : Attestation :=
  mkAttestation (Attestation_Summary x) (Attestation_Assessor x) v (Attestation_Signature x).
Definition set_Attestation_Signature (v : ptr (JSFSignature)) (x : Attestation) : Attestation :=
  mkAttestation (Attestation_Summary x) (Attestation_Assessor x) (Attestation_Map x) v.
Definition over_Attestation_Summary (f : string -> string) (x : Attestation) : Attestation := set_Attestation_Summary (f (Attestation_Summary x)) x.
Definition over_Attestation_Assessor (f : BOMReference -> BOMReference) (x : Attestation) : Attestation := set_Attestation_Assessor (f (Attestation_Assessor x)) x.
Definition over_Attestation_Map (f : ptr (slice (AttestationMap)) -> ptr (slice (AttestationMap))) (x : Attestation) : Attestation := set_Attestation_Map (f (Attestation_Map x)) x.
Definition over_Attestation_Signature (f : ptr (JSFSignature) -> ptr (JSFSignature)) (x : Attestation) : Attestation := set_Attestation_Signature (f (Attestation_Signature x)) x.
Definition zero_Attestation : Attestation := mkAttestation ("") ("") (None) (None).

(** /repo/cyclonedx.go:1006-1010 *)
Record Lifecycle := mkLifecycle {
  Lifecycle_Name : string;
  Lifecycle_Phase : LifecyclePhase;
  Lifecycle_Description : string
}.
Definition set_Lifecycle_Name (v : string) (x : Lifecycle) : Lifecycle :=
  mkLifecycle v (Lifecycle_Phase x) (Lifecycle_Description x).
Definition set_Lifecycle_Phase (v : LifecyclePhase) (x : Lifecycle) : Lifecycle :=
  mkLifecycle (Lifecycle_Name x) v (Lifecycle_Description x).
Definition set_Lifecycle_Description (v : string) (x : Lifecycle) : Lifecycle :=
  mkLifecycle (Lifecycle_Name x) (Lifecycle_Phase x) v.
Definition over_Lifecycle_Name (f : string -> string) (x : Lifecycle) : Lifecycle := set_Lifecycle_Name (f (Lifecycle_Name x)) x.
Definition over_Lifecycle_Phase (f : LifecyclePhase -> LifecyclePhase) (x : Lifecycle) : Lifecycle := set_Lifecycle_Phase (f (Lifecycle_Phase x)) x.
Definition over_Lifecycle_Description (f : string -> string) (x : Lifecycle) : Lifecycle := set_Lifecycle_Description (f (Lifecycle_Description x)) x.
Definition zero_Lifecycle : Lifecycle := mkLifecycle ("") ("") ("").

(** /repo/cyclonedx.go:1594-1600 *)
Record Tool := mkTool {
  Tool_Vendor : string;
  Tool_Name : string;
  Tool_Version : string;
  Tool_Hashes : ptr (slice (Hash));
  Tool_ExternalReferences : ptr (slice (ExternalReference))
}.
Definition set_Tool_Vendor (v : string) (x : Tool) : Tool :=
  mkTool v (Tool_Name x) (Tool_Version x) (Tool_Hashes x) (Tool_ExternalReferences x).
Definition set_Tool_Name (v : string) (x : Tool) : Tool :=
  mkTool (Tool_Vendor x) v (Tool_Version x) (Tool_Hashes x) (Tool_ExternalReferences x).
Definition set_Tool_Version (v : string) (x : Tool) : Tool :=
  mkTool (Tool_Vendor x) (Tool_Name x) v (Tool_Hashes x) (Tool_ExternalReferences x).
Definition set_Tool_Hashes (v : ptr (slice (Hash))) (x : Tool) : Tool :=
  mkTool (Tool_Vendor x) (Tool_Name x) (Tool_Version x) v (Tool_ExternalReferences x).
Definition set_Tool_ExternalReferences (v : ptr (slice (ExternalReference))) (x : Tool) : Tool :=
  mkTool (Tool_Vendor x) (Tool_Name x) (Tool_Version x) (Tool_Hashes x) v.
Definition over_Tool_Vendor (f : string -> string) (x : Tool) : Tool := set_Tool_Vendor (f (Tool_Vendor x)) x.
Definition over_Tool_Name (f : string -> string) (x : Tool) : Tool := set_Tool_Name (f (Tool_Name x)) x.
Definition over_Tool_Version (f : string -> string) (x : Tool) : Tool := set_Tool_Version (f (Tool_Version x)) x.
Definition over_Tool_Hashes (f : ptr (slice (Hash)) -> ptr (slice (Hash))) (x : Tool) : Tool := set_Tool_Hashes (f (Tool_Hashes x)) x.
Definition over_Tool_ExternalReferences (f : ptr (slice (ExternalReference)) -> ptr (slice (ExternalReference))) (x : Tool) : Tool := set_Tool_ExternalReferences (f (Tool_ExternalReferences x)) x.
Definition zero_Tool : Tool := mkTool ("") ("") ("") (None) (None).

(** /repo/cyclonedx.go:1610-1614 *)
Record ToolsChoice := mkToolsChoice {
  ToolsChoice_Tools : ptr (slice (Tool));
  ToolsChoice_Components : ptr (slice (Component));
  ToolsChoice_Services : ptr (slice (Service))
}.
Definition set_ToolsChoice_Tools (v : ptr (slice (Tool))) (x : ToolsChoice) : ToolsChoice :=
  mkToolsChoice v (ToolsChoice_Components x) (ToolsChoice_Services x).
Definition set_ToolsChoice_Components (v : ptr (slice (Component))) (x : ToolsChoice) : ToolsChoice :=
  mkToolsChoice (ToolsChoice_Tools x) v (ToolsChoice_Services x).
Definition set_ToolsChoice_Services (v : ptr (slice (Service))) (x : ToolsChoice) : ToolsChoice :=
  mkToolsChoice (ToolsChoice_Tools x) (ToolsChoice_Components x) v.
Definition over_ToolsChoice_Tools (f : ptr (slice (Tool)) -> ptr (slice (Tool))) (x : ToolsChoice) : ToolsChoice := set_ToolsChoice_Tools (f (ToolsChoice_Tools x)) x.
Definition over_ToolsChoice_Components (f : ptr (slice (Component)) -> ptr (slice (Component))) (x : ToolsChoice) : ToolsChoice := set_ToolsChoice_Components (f (ToolsChoice_Components x)) x.
Definition over_ToolsChoice_Services (f : ptr (slice (Service)) -> ptr (slice (Service))) (x : ToolsChoice) : ToolsChoice := set_ToolsChoice_Services (f (ToolsChoice_Services x)) x.
Definition zero_ToolsChoice : ToolsChoice := mkToolsChoice (None) (None) (None).

(** /repo/cyclonedx.go:1809-1811 *)
Record DistributionConstraints := mkDistributionConstraints {
  DistributionConstraints_TLP : TLPClassification
}.
Definition set_DistributionConstraints_TLP (v : TLPClassification) (x : DistributionConstraints) : DistributionConstraints :=
  mkDistributionConstraints v.
Definition over_DistributionConstraints_TLP (f : TLPClassification -> TLPClassification) (x : DistributionConstraints) : DistributionConstraints := set_DistributionConstraints_TLP (f (DistributionConstraints_TLP x)) x.
Definition zero_DistributionConstraints : DistributionConstraints := mkDistributionConstraints ("").

(** /repo/cyclonedx.go:1042-1054 *)
Record Metadata := mkMetadata {
  Metadata_Timestamp : string;
  Metadata_Lifecycles : ptr (slice (Lifecycle));
  Metadata_Tools : ptr (ToolsChoice);
  Metadata_Authors : ptr (slice (OrganizationalContact));
  Metadata_Component : ptr (Component);
  Metadata_Manufacture : ptr (OrganizationalEntity);
  Metadata_Manufacturer : ptr (OrganizationalEntity);
  Metadata_Supplier : ptr (OrganizationalEntity);
  Metadata_Licenses : ptr (Licenses);
  Metadata_Properties : ptr (slice (Property));
  Metadata_DistributionConstraints : ptr (DistributionConstraints)
}.
Definition set_Metadata_Timestamp (v : string) (x : Metadata) : Metadata :=
  mkMetadata v (Metadata_Lifecycles x) (Metadata_Tools x) (Metadata_Authors x) (Metadata_Component x) (Metadata_Manufacture x) (Metadata_Manufacturer x) (Metadata_Supplier x) (Metadata_Licenses x) (Metadata_Properties x) (Metadata_DistributionConstraints x).
Definition set_Metadata_Lifecycles (v : ptr (slice (Lifecycle))) (x : Metadata) : Metadata :=
  mkMetadata (Metadata_Timestamp x) v (Metadata_Tools x) (Metadata_Authors x) (Metadata_Component x) (Metadata_Manufacture x) (Metadata_Manufacturer x) (Metadata_Supplier x) (Metadata_Licenses x) (Metadata_Properties x) (Metadata_DistributionConstraints x).
Definition set_Metadata_Tools (v : ptr (ToolsChoice)) (x : Metadata) : Metadata :=
  mkMetadata (Metadata_Timestamp x) (Metadata_Lifecycles x) v (Metadata_Authors x) (Metadata_Component x) (Metadata_Manufacture x) (Metadata_Manufacturer x) (Metadata_Supplier x) (Metadata_Licenses x) (Metadata_Properties x) (Metadata_DistributionConstraints x).
Definition set_Metadata_Authors (v : ptr (slice (OrganizationalContact))) (x : Metadata) : Metadata :=
  mkMetadata (Metadata_Timestamp x) (Metadata_Lifecycles x) (Metadata_Tools x) v (Metadata_Component x) (Metadata_Manufacture x) (Metadata_Manufacturer x) (Metadata_Supplier x) (Metadata_Licenses x) (Metadata_Properties x) (Metadata_DistributionConstraints x).
Definition set_Metadata_Component (v : ptr (Component)) (x : Metadata) : Metadata :=
  mkMetadata (Metadata_Timestamp x) (Metadata_Lifecycles x) (Metadata_Tools x) (Metadata_Authors x) v (Metadata_Manufacture x) (Metadata_Manufacturer x) (Metadata_Supplier x) (Metadata_Licenses x) (Metadata_Properties x) (Metadata_DistributionConstraints x).
Definition set_Metadata_Manufacture (v : ptr (OrganizationalEntity)) (x : Metadata) : Metadata :=
  mkMetadata (Metadata_Timestamp x) (Metadata_Lifecycles x) (Metadata_Tools x) (Metadata_Authors x) (Metadata_Component x) v (Metadata_Manufacturer x) (Metadata_Supplier x) (Metadata_Licenses x) (Metadata_Properties x) (Metadata_DistributionConstraints x).
Definition set_Metadata_Manufacturer (v : ptr (OrganizationalEntity)) (x : Metadata) : Metadata :=
  mkMetadata (Metadata_Timestamp x) (Metadata_Lifecycles x) (Metadata_Tools x) (Metadata_Authors x) (Metadata_Component x) (Metadata_Manufacture x) v (Metadata_Supplier x) (Metadata_Licenses x) (Metadata_Properties x) (Metadata_DistributionConstraints x).
Definition set_Metadata_Supplier (v : ptr (OrganizationalEntity)) (x : Metadata) : Metadata :=
  mkMetadata (Metadata_Timestamp x) (Metadata_Lifecycles x) (Metadata_Tools x) (Metadata_Authors x) (Metadata_Component x) (Metadata_Manufacture x) (Metadata_Manufacturer x) v (Metadata_Licenses x) (Metadata_Properties x) (Metadata_DistributionConstraints x).
Definition set_Metadata_Licenses (v : ptr (Licenses)) (x : Metadata) : Metadata :=
  mkMetadata (Metadata_Timestamp x) (Metadata_Lifecycles x) (Metadata_Tools x) (Metadata_Authors x) (Metadata_Component x) (Metadata_Manufacture x) (Metadata_Manufacturer x) (Metadata_Supplier x) v (Metadata_Properties x) (Metadata_DistributionConstraints x).
Definition set_Metadata_Properties (v : ptr (slice (Property))) (x : Metadata) : Metadata :=
  mkMetadata (Metadata_Timestamp x) (Metadata_Lifecycles x) (Metadata_Tools x) (Metadata_Authors x) (Metadata_Component x) (Metadata_Manufacture x) (Metadata_Manufacturer x) (Metadata_Supplier x) (Metadata_Licenses x) v (Metadata_DistributionConstraints x).
Definition set_Metadata_DistributionConstraints (v : ptr (DistributionConstraints)) (x : Metadata) : Metadata :=
  mkMetadata (Metadata_Timestamp x) (Metadata_Lifecycles x) (Metadata_Tools x) (Metadata_Authors x) (Metadata_Component x) (Metadata_Manufacture x) (Metadata_Manufacturer x) (Metadata_Supplier x) (Metadata_Licenses x) (Metadata_Properties x) v.
Definition over_Metadata_Timestamp (f : string -> string) (x : Metadata) : Metadata := set_Metadata_Timestamp (f (Metadata_Timestamp x)) x.
Definition over_Metadata_Lifecycles (f : ptr (slice (Lifecycle)) -> ptr (slice (Lifecycle))) (x : Metadata) : Metadata := set_Metadata_Lifecycles (f (Metadata_Lifecycles x)) x.
Definition over_Metadata_Tools (f : ptr (ToolsChoice) -> ptr (ToolsChoice)) (x : Metadata) : Metadata := set_Metadata_Tools (f (Metadata_Tools x)) x.
Definition over_Metadata_Authors (f : ptr (slice (OrganizationalContact)) -> ptr (slice (OrganizationalContact))) (x : Metadata) : Metadata := set_Metadata_Authors (f (Metadata_Authors x)) x.
Definition over_Metadata_Component (f : ptr (Component) -> ptr (Component)) (x : Metadata) : Metadata := set_Metadata_Component (f (Metadata_Component x)) x.
Definition over_Metadata_Manufacture (f : ptr (OrganizationalEntity) -> ptr (OrganizationalEntity)) (x : Metadata) : Metadata := set_Metadata_Manufacture (f (Metadata_Manufacture x)) x.
Definition over_Metadata_Manufacturer (f : ptr (OrganizationalEntity) -> ptr (OrganizationalEntity)) (x : Metadata) : Metadata := set_Metadata_Manufacturer (f (Metadata_Manufacturer x)) x.
Definition over_Metadata_Supplier (f : ptr (OrganizationalEntity) -> ptr (OrganizationalEntity)) (x : Metadata) : Metadata := set_Metadata_Supplier (f (Metadata_Supplier x)) x.
Definition over_Metadata_Licenses (f : ptr (Licenses) -> ptr (Licenses)) (x : Metadata) : Metadata := set_Metadata_Licenses (f (Metadata_Licenses x)) x.
Definition over_Metadata_Properties (f : ptr (slice (Property)) -> ptr (slice (Property))) (x : Metadata) : Metadata := set_Metadata_Properties (f (Metadata_Properties x)) x.
Definition over_Metadata_DistributionConstraints (f : ptr (DistributionConstraints) -> ptr (DistributionConstraints)) (x : Metadata) : Metadata := set_Metadata_DistributionConstraints (f (Metadata_DistributionConstraints x)) x.
Definition zero_Metadata : Metadata := mkMetadata ("") (None) (None) (None) (None) (None) (None) (None) (None) (None) (None).

(** /repo/cyclonedx.go:644-648 *)
Record Dependency := mkDependency {
  Dependency_Ref : string;
  Dependency_Dependencies : ptr (slice (string));
  Dependency_Provides : ptr (slice (string))
}.
Definition set_Dependency_Ref (v : string) (x : Dependency) : Dependency :=
  mkDependency v (Dependency_Dependencies x) (Dependency_Provides x).
Definition set_Dependency_Dependencies (v : ptr (slice (string))) (x : Dependency) : Dependency :=
  mkDependency (Dependency_Ref x) v (Dependency_Provides x).
Definition set_Dependency_Provides (v : ptr (slice (string))) (x : Dependency) : Dependency :=
  mkDependency (Dependency_Ref x) (Dependency_Dependencies x) v.
Definition over_Dependency_Ref (f : string -> string) (x : Dependency) : Dependency := set_Dependency_Ref (f (Dependency_Ref x)) x.
Definition over_Dependency_Dependencies (f : ptr (slice (string)) -> ptr (slice (string))) (x : Dependency) : Dependency := set_Dependency_Dependencies (f (Dependency_Dependencies x)) x.
Definition over_Dependency_Provides (f : ptr (slice (string)) -> ptr (slice (string))) (x : Dependency) : Dependency := set_Dependency_Provides (f (Dependency_Provides x)) x.
Definition zero_Dependency : Dependency := mkDependency ("") (None) (None).

(** /repo/cyclonedx.go:321-328 *)
Record Composition := mkComposition {
  Composition_BOMRef : string;
  Composition_Aggregate : CompositionAggregate;
  Composition_Assemblies : ptr (slice (BOMReference));
  Composition_Dependencies : ptr (slice (BOMReference));
  Composition_Vulnerabilities : ptr (slice (BOMReference));
  Composition_Signature : ptr (JSFSignature)
}.
Definition set_Composition_BOMRef (v : string) (x : Composition) : Composition :=
  mkComposition v (Composition_Aggregate x) (Composition_Assemblies x) (Composition_Dependencies x) (Composition_Vulnerabilities x) (Composition_Signature x).
Definition set_Composition_Aggregate (v : CompositionAggregate) (x : Composition) : Composition :=
  mkComposition (Composition_BOMRef x) v (Composition_Assemblies x) (Composition_Dependencies x) (Composition_Vulnerabilities x) (Composition_Signature x).
Definition set_Composition_Assemblies (v : ptr (slice (BOMReference))) (x : Composition) : Composition :=
  mkComposition (Composition_BOMRef x) (Composition_Aggregate x) v (Composition_Dependencies x) (Composition_Vulnerabilities x) (Composition_Signature x).
Definition set_Composition_Dependencies (v : ptr (slice (BOMReference))) (x : Composition) : Composition :=
  mkComposition (Composition_BOMRef x) (Composition_Aggregate x) (Composition_Assemblies x) v (Composition_Vulnerabilities x) (Composition_Signature x).
Definition set_Composition_Vulnerabilities (v : ptr (slice (BOMReference))) (x : Composition) : Composition :=
  mkComposition (Composition_BOMRef x) (Composition_Aggregate x) (Composition_Assemblies x) (Composition_Dependencies x) v (Composition_Signature x).
Definition set_Composition_Signature (v : ptr (JSFSignature)) (x : Composition) : Composition :=
  mkComposition (Composition_BOMRef x) (Composition_Aggregate x) (Composition_Assemblies x) (Composition_Dependencies x) (Composition_Vulnerabilities x) v.
Definition over_Composition_BOMRef (f : string -> string) (x : Composition) : Composition := set_Composition_BOMRef (f (Composition_BOMRef x)) x.
Definition over_Composition_Aggregate (f : CompositionAggregate -> CompositionAggregate) (x : Composition) : Composition := set_Composition_Aggregate (f (Composition_Aggregate x)) x.
Definition over_Composition_Assemblies (f : ptr (slice (BOMReference)) -> ptr (slice (BOMReference))) (x : Composition) : Composition := set_Composition_Assemblies (f (Composition_Assemblies x)) x.
Definition over_Composition_Dependencies (f : ptr (slice (BOMReference)) -> ptr (slice (BOMReference))) (x : Composition) : Composition := set_Composition_Dependencies (f (Composition_Dependencies x)) x.
Definition over_Composition_Vulnerabilities (f : ptr (slice (BOMReference)) -> ptr (slice (BOMReference))) (x : Composition) : Composition := set_Composition_Vulnerabilities (f (Composition_Vulnerabilities x)) x.
Definition over_Composition_Signature (f : ptr (JSFSignature) -> ptr (JSFSignature)) (x : Composition) : Composition := set_Composition_Signature (f (Composition_Signature x)) x.
Definition zero_Composition : Composition := mkComposition ("") ("") (None) (None) (None) (None).

(** /repo/cyclonedx.go:1676-1679 *)
Record VulnerabilityReference := mkVulnerabilityReference {
  VulnerabilityReference_ID : string;
  VulnerabilityReference_Source : ptr (Source)
}.
Definition set_VulnerabilityReference_ID (v : string) (x : VulnerabilityReference) : VulnerabilityReference :=
  mkVulnerabilityReference v (VulnerabilityReference_Source x).
Definition set_VulnerabilityReference_Source (v : ptr (Source)) (x : VulnerabilityReference) : VulnerabilityReference :=
  mkVulnerabilityReference (VulnerabilityReference_ID x) v.
Definition over_VulnerabilityReference_ID (f : string -> string) (x : VulnerabilityReference) : VulnerabilityReference := set_VulnerabilityReference_ID (f (VulnerabilityReference_ID x)) x.
Definition over_VulnerabilityReference_Source (f : ptr (Source) -> ptr (Source)) (x : VulnerabilityReference) : VulnerabilityReference := set_VulnerabilityReference_Source (f (VulnerabilityReference_Source x)) x.
Definition zero_VulnerabilityReference : VulnerabilityReference := mkVulnerabilityReference ("") (None).

(** /repo/cyclonedx.go:1667-1674 *)
Record VulnerabilityRating := mkVulnerabilityRating {
  VulnerabilityRating_Source : ptr (Source);
  VulnerabilityRating_Score : ptr (gofloat);
  VulnerabilityRating_Severity : Severity;
  VulnerabilityRating_Method : ScoringMethod;
  VulnerabilityRating_Vector : string;
  VulnerabilityRating_Justification : string
}.
Definition set_VulnerabilityRating_Source (v : ptr (Source)) (x : VulnerabilityRating) : VulnerabilityRating :=
  mkVulnerabilityRating v (VulnerabilityRating_Score x) (VulnerabilityRating_Severity x) (VulnerabilityRating_Method x) (VulnerabilityRating_Vector x) (VulnerabilityRating_Justification x).
Definition set_VulnerabilityRating_Score (v : ptr (gofloat)) (x : VulnerabilityRating) : VulnerabilityRating :=
  mkVulnerabilityRating (VulnerabilityRating_Source x) v (VulnerabilityRating_Severity x) (VulnerabilityRating_Method x) (VulnerabilityRating_Vector x) (VulnerabilityRating_Justification x).
Definition set_VulnerabilityRating_Severity (v : Severity) (x : VulnerabilityRating) : VulnerabilityRating :=
  mkVulnerabilityRating (VulnerabilityRating_Source x) (VulnerabilityRating_Score x) v (VulnerabilityRating_Method x) (VulnerabilityRating_Vector x) (VulnerabilityRating_Justification x).
Definition set_VulnerabilityRating_Method (v : ScoringMethod) (x : VulnerabilityRating) : VulnerabilityRating :=
  mkVulnerabilityRating (VulnerabilityRating_Source x) (VulnerabilityRating_Score x) (VulnerabilityRating_Severity x) v (VulnerabilityRating_Vector x) (VulnerabilityRating_Justification x).
Definition set_VulnerabilityRating_Vector (v : string) (x : VulnerabilityRating) : VulnerabilityRating :=
  mkVulnerabilityRating (VulnerabilityRating_Source x) (VulnerabilityRating_Score x) (VulnerabilityRating_Severity x) (VulnerabilityRating_Method x) v (VulnerabilityRating_Justification x).
Definition set_VulnerabilityRating_Justification (v : string) (x : VulnerabilityRating) : VulnerabilityRating :=
  mkVulnerabilityRating (VulnerabilityRating_Source x) (VulnerabilityRating_Score x) (VulnerabilityRating_Severity x) (VulnerabilityRating_Method x) (VulnerabilityRating_Vector x) v.
Definition over_VulnerabilityRating_Source (f : ptr (Source) -> ptr (Source)) (x : VulnerabilityRating) : VulnerabilityRating := set_VulnerabilityRating_Source (f (VulnerabilityRating_Source x)) x.
Definition over_VulnerabilityRating_Score (f : ptr (gofloat) -> ptr (gofloat)) (x : VulnerabilityRating) : VulnerabilityRating := set_VulnerabilityRating_Score (f (VulnerabilityRating_Score x)) x.
Definition over_VulnerabilityRating_Severity (f : Severity -> Severity) (x : VulnerabilityRating) : VulnerabilityRating := set_VulnerabilityRating_Severity (f (VulnerabilityRating_Severity x)) x.
Definition over_VulnerabilityRating_Method (f : ScoringMethod -> ScoringMethod) (x : VulnerabilityRating) : VulnerabilityRating := set_VulnerabilityRating_Method (f (VulnerabilityRating_Method x)) x.
Definition over_VulnerabilityRating_Vector (f : string -> string) (x : VulnerabilityRating) : VulnerabilityRating := set_VulnerabilityRating_Vector (f (VulnerabilityRating_Vector x)) x.
Definition over_VulnerabilityRating_Justification (f : string -> string) (x : VulnerabilityRating) : VulnerabilityRating := set_VulnerabilityRating_Justification (f (VulnerabilityRating_Justification x)) x.
Definition zero_VulnerabilityRating : VulnerabilityRating := mkVulnerabilityRating (None) (None) ("") ("") ("") ("").

(** /repo/cyclonedx.go:1271-1275 *)
Record ProofOfConcept := mkProofOfConcept {
  ProofOfConcept_ReproductionSteps : string;
  ProofOfConcept_Environment : string;
  ProofOfConcept_SupportingMaterial : ptr (slice (AttachedText))
}.
Definition set_ProofOfConcept_ReproductionSteps (v : string) (x : ProofOfConcept) : ProofOfConcept :=
  mkProofOfConcept v (ProofOfConcept_Environment x) (ProofOfConcept_SupportingMaterial x).
Definition set_ProofOfConcept_Environment (v : string) (x : ProofOfConcept) : ProofOfConcept :=
  mkProofOfConcept (ProofOfConcept_ReproductionSteps x) v (ProofOfConcept_SupportingMaterial x).
Definition set_ProofOfConcept_SupportingMaterial (v : ptr (slice (AttachedText))) (x : ProofOfConcept) : ProofOfConcept :=
  mkProofOfConcept (ProofOfConcept_ReproductionSteps x) (ProofOfConcept_Environment x) v.
Definition over_ProofOfConcept_ReproductionSteps (f : string -> string) (x : ProofOfConcept) : ProofOfConcept := set_ProofOfConcept_ReproductionSteps (f (ProofOfConcept_ReproductionSteps x)) x.
Definition over_ProofOfConcept_Environment (f : string -> string) (x : ProofOfConcept) : ProofOfConcept := set_ProofOfConcept_Environment (f (ProofOfConcept_Environment x)) x.
Definition over_ProofOfConcept_SupportingMaterial (f : ptr (slice (AttachedText)) -> ptr (slice (AttachedText))) (x : ProofOfConcept) : ProofOfConcept := set_ProofOfConcept_SupportingMaterial (f (ProofOfConcept_SupportingMaterial x)) x.
Definition zero_ProofOfConcept : ProofOfConcept := mkProofOfConcept ("") ("") (None).

(** /repo/cyclonedx.go:349-352 *)
Record Credits := mkCredits {
  Credits_Organizations : ptr (slice (OrganizationalEntity));
  Credits_Individuals : ptr (slice (OrganizationalContact))
}.
Definition set_Credits_Organizations (v : ptr (slice (OrganizationalEntity))) (x : Credits) : Credits :=
  mkCredits v (Credits_Individuals x).
Definition set_Credits_Individuals (v : ptr (slice (OrganizationalContact))) (x : Credits) : Credits :=
  mkCredits (Credits_Organizations x) v.
Definition over_Credits_Organizations (f : ptr (slice (OrganizationalEntity)) -> ptr (slice (OrganizationalEntity))) (x : Credits) : Credits := set_Credits_Organizations (f (Credits_Organizations x)) x.
Definition over_Credits_Individuals (f : ptr (slice (OrganizationalContact)) -> ptr (slice (OrganizationalContact))) (x : Credits) : Credits := set_Credits_Individuals (f (Credits_Individuals x)) x.
Definition zero_Credits : Credits := mkCredits (None) (None).

(** /repo/cyclonedx.go:1658-1665 *)
Record VulnerabilityAnalysis := mkVulnerabilityAnalysis {
  VulnerabilityAnalysis_State : ImpactAnalysisState;
  VulnerabilityAnalysis_Justification : ImpactAnalysisJustification;
  VulnerabilityAnalysis_Response : ptr (slice (ImpactAnalysisResponse));
  VulnerabilityAnalysis_Detail : string;
  VulnerabilityAnalysis_FirstIssued : string;
  VulnerabilityAnalysis_LastUpdated : string
}.
Definition set_VulnerabilityAnalysis_State (v : ImpactAnalysisState) (x : VulnerabilityAnalysis) : VulnerabilityAnalysis :=
  mkVulnerabilityAnalysis v (VulnerabilityAnalysis_Justification x) (VulnerabilityAnalysis_Response x) (VulnerabilityAnalysis_Detail x) (VulnerabilityAnalysis_FirstIssued x) (VulnerabilityAnalysis_LastUpdated x).
Definition set_VulnerabilityAnalysis_Justification (v : ImpactAnalysisJustification) (x : VulnerabilityAnalysis) : VulnerabilityAnalysis :=
  mkVulnerabilityAnalysis (VulnerabilityAnalysis_State x) v (VulnerabilityAnalysis_Response x) (VulnerabilityAnalysis_Detail x) (VulnerabilityAnalysis_FirstIssued x) (VulnerabilityAnalysis_LastUpdated x).
Definition set_VulnerabilityAnalysis_Response (v : ptr (slice (ImpactAnalysisResponse))) (x : VulnerabilityAnalysis) : VulnerabilityAnalysis :=
  mkVulnerabilityAnalysis (VulnerabilityAnalysis_State x) (VulnerabilityAnalysis_Justification x) v (VulnerabilityAnalysis_Detail x) (VulnerabilityAnalysis_FirstIssued x) (VulnerabilityAnalysis_LastUpdated x).
Definition set_VulnerabilityAnalysis_Detail (v : string) (x : VulnerabilityAnalysis) : VulnerabilityAnalysis :=
  mkVulnerabilityAnalysis (VulnerabilityAnalysis_State x) (VulnerabilityAnalysis_Justification x) (VulnerabilityAnalysis_Response x) v (VulnerabilityAnalysis_FirstIssued x) (VulnerabilityAnalysis_LastUpdated x).
Definition set_VulnerabilityAnalysis_FirstIssued (v : string) (x : VulnerabilityAnalysis) : VulnerabilityAnalysis :=
  mkVulnerabilityAnalysis (VulnerabilityAnalysis_State x) (VulnerabilityAnalysis_Justification x) (VulnerabilityAnalysis_Response x) (VulnerabilityAnalysis_Detail x) v (VulnerabilityAnalysis_LastUpdated x).
Definition set_VulnerabilityAnalysis_LastUpdated (v : string) (x : VulnerabilityAnalysis) : VulnerabilityAnalysis :=
  mkVulnerabilityAnalysis (VulnerabilityAnalysis_State x) (VulnerabilityAnalysis_Justification x) (VulnerabilityAnalysis_Response x) (VulnerabilityAnalysis_Detail x) (VulnerabilityAnalysis_FirstIssued x) v.
Definition over_VulnerabilityAnalysis_State (f : ImpactAnalysisState -> ImpactAnalysisState) (x : VulnerabilityAnalysis) : VulnerabilityAnalysis := set_VulnerabilityAnalysis_State (f (VulnerabilityAnalysis_State x)) x.
Definition over_VulnerabilityAnalysis_Justification (f : ImpactAnalysisJustification -> ImpactAnalysisJustification) (x : VulnerabilityAnalysis) : VulnerabilityAnalysis := set_VulnerabilityAnalysis_Justification (f (VulnerabilityAnalysis_Justification x)) x.
Definition over_VulnerabilityAnalysis_Response (f : ptr (slice (ImpactAnalysisResponse)) -> ptr (slice (ImpactAnalysisResponse))) (x : VulnerabilityAnalysis) : VulnerabilityAnalysis := set_VulnerabilityAnalysis_Response (f (VulnerabilityAnalysis_Response x)) x.
Definition over_VulnerabilityAnalysis_Detail (f : string -> string) (x : VulnerabilityAnalysis) : VulnerabilityAnalysis := set_VulnerabilityAnalysis_Detail (f (VulnerabilityAnalysis_Detail x)) x.
Definition over_VulnerabilityAnalysis_FirstIssued (f : string -> string) (x : VulnerabilityAnalysis) : VulnerabilityAnalysis := set_VulnerabilityAnalysis_FirstIssued (f (VulnerabilityAnalysis_FirstIssued x)) x.
Definition over_VulnerabilityAnalysis_LastUpdated (f : string -> string) (x : VulnerabilityAnalysis) : VulnerabilityAnalysis := set_VulnerabilityAnalysis_LastUpdated (f (VulnerabilityAnalysis_LastUpdated x)) x.
Definition zero_VulnerabilityAnalysis : VulnerabilityAnalysis := mkVulnerabilityAnalysis ("") ("") (None) ("") ("") ("").

(** /repo/cyclonedx.go:1634-1656 *)
Record Vulnerability := mkVulnerability {
  Vulnerability_BOMRef : string;
  Vulnerability_ID : string;
  Vulnerability_Source : ptr (Source);
  Vulnerability_References : ptr (slice (VulnerabilityReference));
  Vulnerability_Ratings : ptr (slice (VulnerabilityRating));
  Vulnerability_CWEs : ptr (slice (Z));
  Vulnerability_Description : string;
  Vulnerability_Detail : string;
  Vulnerability_Recommendation : string;
  Vulnerability_Workaround : string;
  Vulnerability_ProofOfConcept : ptr (ProofOfConcept);
  Vulnerability_Advisories : ptr (slice (Advisory));
  Vulnerability_Created : string;
  Vulnerability_Published : string;
  Vulnerability_Updated : string;
  Vulnerability_Rejected : string;
  Vulnerability_Credits : ptr (Credits);
  Vulnerability_Tools : ptr (ToolsChoice);
  Vulnerability_Analysis : ptr (VulnerabilityAnalysis);
  Vulnerability_Affects : ptr (slice (Affects));
  Vulnerability_Properties : ptr (slice (Property))
}.
Definition set_Vulnerability_BOMRef (v : string) (x : Vulnerability) : Vulnerability :=
  mkVulnerability v (Vulnerability_ID x) (Vulnerability_Source x) (Vulnerability_References x) (Vulnerability_Ratings x) (Vulnerability_CWEs x) (Vulnerability_Description x) (Vulnerability_Detail x) (Vulnerability_Recommendation x) (Vulnerability_Workaround x) (Vulnerability_ProofOfConcept x) (Vulnerability_Advisories x) (Vulnerability_Created x) (Vulnerability_Published x) (Vulnerability_Updated x) (Vulnerability_Rejected x) (Vulnerability_Credits x) (Vulnerability_Tools x) (Vulnerability_Analysis x) (Vulnerability_Affects x) (Vulnerability_Properties x).
Definition set_Vulnerability_ID (v : string) (x : Vulnerability) : Vulnerability :=
  mkVulnerability (Vulnerability_BOMRef x) v (Vulnerability_Source x) (Vulnerability_References x) (Vulnerability_Ratings x) (Vulnerability_CWEs x) (Vulnerability_Description x) (Vulnerability_Detail x) (Vulnerability_Recommendation x) (Vulnerability_Workaround x) (Vulnerability_ProofOfConcept x) (Vulnerability_Advisories x) (Vulnerability_Created x) (Vulnerability_Published x) (Vulnerability_Updated x) (Vulnerability_Rejected x) (Vulnerability_Credits x) (Vulnerability_Tools x) (Vulnerability_Analysis x) (Vulnerability_Affects x) (Vulnerability_Properties x).
Definition set_Vulnerability_Source (v : ptr (Source)) (x : Vulnerability) : Vulnerability :=
  mkVulnerability (Vulnerability_BOMRef x) (Vulnerability_ID x) v (Vulnerability_References x) (Vulnerability_Ratings x) (Vulnerability_CWEs x) (Vulnerability_Description x) (Vulnerability_Detail x) (Vulnerability_Recommendation x) (Vulnerability_Workaround x) (Vulnerability_ProofOfConcept x) (Vulnerability_Advisories x) (Vulnerability_Created x) (Vulnerability_Published x) (Vulnerability_Updated x) (Vulnerability_Rejected x) (Vulnerability_Credits x) (Vulnerability_Tools x) (Vulnerability_Analysis x) (Vulnerability_Affects x) (Vulnerability_Properties x).
Definition set_Vulnerability_References (v : ptr (slice (VulnerabilityReference))) (x : Vulnerability) : Vulnerability :=
  mkVulnerability (Vulnerability_BOMRef x) (Vulnerability_ID x) (Vulnerability_Source x) v (Vulnerability_Ratings x) (Vulnerability_CWEs x) (Vulnerability_Description x) (Vulnerability_Detail x) (Vulnerability_Recommendation x) (Vulnerability_Workaround x) (Vulnerability_ProofOfConcept x) (Vulnerability_Advisories x) (Vulnerability_Created x) (Vulnerability_Published x) (Vulnerability_Updated x) (Vulnerability_Rejected x) (Vulnerability_Credits x) (Vulnerability_Tools x) (Vulnerability_Analysis x) (Vulnerability_Affects x) (Vulnerability_Properties x).
Definition set_Vulnerability_Ratings (v : ptr (slice (VulnerabilityRating))) (x : Vulnerability) : Vulnerability :=
  mkVulnerability (Vulnerability_BOMRef x) (Vulnerability_ID x) (Vulnerability_Source x) (Vulnerability_References x) v (Vulnerability_CWEs x) (Vulnerability_Description x) (Vulnerability_Detail x) (Vulnerability_Recommendation x) (Vulnerability_Workaround x) (Vulnerability_ProofOfConcept x) (Vulnerability_Advisories x) (Vulnerability_Created x) (Vulnerability_Published x) (Vulnerability_Updated x) (Vulnerability_Rejected x) (Vulnerability_Credits x) (Vulnerability_Tools x) (Vulnerability_Analysis x) (Vulnerability_Affects x) (Vulnerability_Properties x).
Definition set_Vulnerability_CWEs (v : ptr (slice (Z))) (x : Vulnerability) : Vulnerability :=
  mkVulnerability (Vulnerability_BOMRef x) (Vulnerability_ID x) (Vulnerability_Source x) (Vulnerability_References x) (Vulnerability_Ratings x) v (Vulnerability_Description x) (Vulnerability_Detail x) (Vulnerability_Recommendation x) (Vulnerability_Workaround x) (Vulnerability_ProofOfConcept x) (Vulnerability_Advisories x) (Vulnerability_Created x) (Vulnerability_Published x) (Vulnerability_Updated x) (Vulnerability_Rejected x) (Vulnerability_Credits x) (Vulnerability_Tools x) (Vulnerability_Analysis x) (Vulnerability_Affects x) (Vulnerability_Properties x).
Definition set_Vulnerability_Description (v : string) (x : Vulnerability) : Vulnerability :=
  mkVulnerability (Vulnerability_BOMRef x) (Vulnerability_ID x) (Vulnerability_Source x) (Vulnerability_References x) (Vulnerability_Ratings x) (Vulnerability_CWEs x) v (Vulnerability_Detail x) (Vulnerability_Recommendation x) (Vulnerability_Workaround x) (Vulnerability_ProofOfConcept x) (Vulnerability_Advisories x) (Vulnerability_Created x) (Vulnerability_Published x) (Vulnerability_Updated x) (Vulnerability_Rejected x) (Vulnerability_Credits x) (Vulnerability_Tools x) (Vulnerability_Analysis x) (Vulnerability_Affects x) (Vulnerability_Properties x).
Definition set_Vulnerability_Detail (v : string) (x : Vulnerability) : Vulnerability :=
  mkVulnerability (Vulnerability_BOMRef x) (Vulnerability_ID x) (Vulnerability_Source x) (Vulnerability_References x) (Vulnerability_Ratings x) (Vulnerability_CWEs x) (Vulnerability_Description x) v (Vulnerability_Recommendation x) (Vulnerability_Workaround x) (Vulnerability_ProofOfConcept x) (Vulnerability_Advisories x) (Vulnerability_Created x) (Vulnerability_Published x) (Vulnerability_Updated x) (Vulnerability_Rejected x) (Vulnerability_Credits x) (Vulnerability_Tools x) (Vulnerability_Analysis x) (Vulnerability_Affects x) (Vulnerability_Properties x).
Definition set_Vulnerability_Recommendation (v : string) (x : Vulnerability) : Vulnerability :=
  mkVulnerability (Vulnerability_BOMRef x) (Vulnerability_ID x) (Vulnerability_Source x) (Vulnerability_References x) (Vulnerability_Ratings x) (Vulnerability_CWEs x) (Vulnerability_Description x) (Vulnerability_Detail x) v (Vulnerability_Workaround x) (Vulnerability_ProofOfConcept x) (Vulnerability_Advisories x) (Vulnerability_Created x) (Vulnerability_Published x) (Vulnerability_Updated x) (Vulnerability_Rejected x) (Vulnerability_Credits x) (Vulnerability_Tools x) (Vulnerability_Analysis x) (Vulnerability_Affects x) (Vulnerability_Properties x).
Definition set_Vulnerability_Workaround (v : string) (x : Vulnerability) : Vulnerability :=
  mkVulnerability (Vulnerability_BOMRef x) (Vulnerability_ID x) (Vulnerability_Source x) (Vulnerability_References x) (Vulnerability_Ratings x) (Vulnerability_CWEs x) (Vulnerability_Description x) (Vulnerability_Detail x) (Vulnerability_Recommendation x) v (Vulnerability_ProofOfConcept x) (Vulnerability_Advisories x) (Vulnerability_Created x) (Vulnerability_Published x) (Vulnerability_Updated x) (Vulnerability_Rejected x) (Vulnerability_Credits x) (Vulnerability_Tools x) (Vulnerability_Analysis x) (Vulnerability_Affects x) (Vulnerability_Properties x).
Definition set_Vulnerability_ProofOfConcept (v : ptr (ProofOfConcept)) (x : Vulnerability) : Vulnerability :=
  mkVulnerability (Vulnerability_BOMRef x) (Vulnerability_ID x) (Vulnerability_Source x) (Vulnerability_References x) (Vulnerability_Ratings x) (Vulnerability_CWEs x) (Vulnerability_Description x) (Vulnerability_Detail x) (Vulnerability_Recommendation x) (Vulnerability_Workaround x) v (Vulnerability_Advisories x) (Vulnerability_Created x) (Vulnerability_Published x) (Vulnerability_Updated x) (Vulnerability_Rejected x) (Vulnerability_Credits x) (Vulnerability_Tools x) (Vulnerability_Analysis x) (Vulnerability_Affects x) (Vulnerability_Properties x).
Definition set_Vulnerability_Advisories (v : ptr (slice (Advisory))) (x : Vulnerability) : Vulnerability :=
  mkVulnerability (Vulnerability_BOMRef x) (Vulnerability_ID x) (Vulnerability_Source x) (Vulnerability_References x) (Vulnerability_Ratings x) (Vulnerability_CWEs x) (Vulnerability_Description x) (Vulnerability_Detail x) (Vulnerability_Recommendation x) (Vulnerability_Workaround x) (Vulnerability_ProofOfConcept x) v (Vulnerability_Created x) (Vulnerability_Published x) (Vulnerability_Updated x) (Vulnerability_Rejected x) (Vulnerability_Credits x) (Vulnerability_Tools x) (Vulnerability_Analysis x) (Vulnerability_Affects x) (Vulnerability_Properties x).
Definition set_Vulnerability_Created (v : string) (x : Vulnerability) : Vulnerability :=
  mkVulnerability (Vulnerability_BOMRef x) (Vulnerability_ID x) (Vulnerability_Source x) (Vulnerability_References x) (Vulnerability_Ratings x) (Vulnerability_CWEs x) (Vulnerability_Description x) (Vulnerability_Detail x) (Vulnerability_Recommendation x) (Vulnerability_Workaround x) (Vulnerability_ProofOfConcept x) (Vulnerability_Advisories x) v (Vulnerability_Published x) (Vulnerability_Updated x) (Vulnerability_Rejected x) (Vulnerability_Credits x) (Vulnerability_Tools x) (Vulnerability_Analysis x) (Vulnerability_Affects x) (Vulnerability_Properties x).
Definition set_Vulnerability_Published (v : string) (x : Vulnerability) : Vulnerability :=
  mkVulnerability (Vulnerability_BOMRef x) (Vulnerability_ID x) (Vulnerability_Source x) (Vulnerability_References x) (Vulnerability_Ratings x) (Vulnerability_CWEs x) (Vulnerability_Description x) (Vulnerability_Detail x) (Vulnerability_Recommendation x) (Vulnerability_Workaround x) (Vulnerability_ProofOfConcept x) (Vulnerability_Advisories x) (Vulnerability_Created x) v (Vulnerability_Updated x) (Vulnerability_Rejected x) (Vulnerability_Credits x) (Vulnerability_Tools x) (Vulnerability_Analysis x) (Vulnerability_Affects x) (Vulnerability_Properties x).
Definition set_Vulnerability_Updated (v : string) (x : Vulnerability) : Vulnerability :=
  mkVulnerability (Vulnerability_BOMRef x) (Vulnerability_ID x) (Vulnerability_Source x) (Vulnerability_References x) (Vulnerability_Ratings x) (Vulnerability_CWEs x) (Vulnerability_Description x) (Vulnerability_Detail x) (Vulnerability_Recommendation x) (Vulnerability_Workaround x) (Vulnerability_ProofOfConcept x) (Vulnerability_Advisories x) (Vulnerability_Created x) (Vulnerability_Published x) v (Vulnerability_Rejected x) (Vulnerability_Credits x) (Vulnerability_Tools x) (Vulnerability_Analysis x) (Vulnerability_Affects x) (Vulnerability_Properties x).
Definition set_Vulnerability_Rejected (v : string) (x : Vulnerability) : Vulnerability :=
  mkVulnerability (Vulnerability_BOMRef x) (Vulnerability_ID x) (Vulnerability_Source x) (Vulnerability_References x) (Vulnerability_Ratings x) (Vulnerability_CWEs x) (Vulnerability_Description x) (Vulnerability_Detail x) (Vulnerability_Recommendation x) (Vulnerability_Workaround x) (Vulnerability_ProofOfConcept x) (Vulnerability_Advisories x) (Vulnerability_Created x) (Vulnerability_Published x) (Vulnerability_Updated x) v (Vulnerability_Credits x) (Vulnerability_Tools x) (Vulnerability_Analysis x) (Vulnerability_Affects x) (Vulnerability_Properties x).
Definition set_Vulnerability_Credits (v : ptr (Credits)) (x : Vulnerability) : Vulnerability :=
  mkVulnerability (Vulnerability_BOMRef x) (Vulnerability_ID x) (Vulnerability_Source x) (Vulnerability_References x) (Vulnerability_Ratings x) (Vulnerability_CWEs x) (Vulnerability_Description x) (Vulnerability_Detail x) (Vulnerability_Recommendation x) (Vulnerability_Workaround x) (Vulnerability_ProofOfConcept x) (Vulnerability_Advisories x) (Vulnerability_Created x) (Vulnerability_Published x) (Vulnerability_Updated x) (Vulnerability_Rejected x) v (Vulnerability_Tools x) (Vulnerability_Analysis x) (Vulnerability_Affects x) (Vulnerability_Properties x).
Definition set_Vulnerability_Tools (v : ptr (ToolsChoice)) (x : Vulnerability) : Vulnerability :=
  mkVulnerability (Vulnerability_BOMRef x) (Vulnerability_ID x) (Vulnerability_Source x) (Vulnerability_References x) (Vulnerability_Ratings x) (Vulnerability_CWEs x) (Vulnerability_Description x) (Vulnerability_Detail x) (Vulnerability_Recommendation x) (Vulnerability_Workaround x) (Vulnerability_ProofOfConcept x) (Vulnerability_Advisories x) (Vulnerability_Created x) (Vulnerability_Published x) (Vulnerability_Updated x) (Vulnerability_Rejected x) (Vulnerability_Credits x) v (Vulnerability_Analysis x) (Vulnerability_Affects x) (Vulnerability_Properties x).
Definition set_Vulnerability_Analysis (v : ptr (VulnerabilityAnalysis)) (x : Vulnerability) : Vulnerability :=
  mkVulnerability (Vulnerability_BOMRef x) (Vulnerability_ID x) (Vulnerability_Source x) (Vulnerability_References x) (Vulnerability_Ratings x) (Vulnerability_CWEs x) (Vulnerability_Description x) (Vulnerability_Detail x) (Vulnerability_Recommendation x) (Vulnerability_Workaround x) (Vulnerability_ProofOfConcept x) (Vulnerability_Advisories x) (Vulnerability_Created x) (Vulnerability_Published x) (Vulnerability_Updated x) (Vulnerability_Rejected x) (Vulnerability_Credits x) (Vulnerability_Tools x) v (Vulnerability_Affects x) (Vulnerability_Properties x).
Definition set_Vulnerability_Affects (v : ptr (slice (Affects))) (x : Vulnerability) : Vulnerability :=
  mkVulnerability (Vulnerability_BOMRef x) (Vulnerability_ID x) (Vulnerability_Source x) (Vulnerability_References x) (Vulnerability_Ratings x) (Vulnerability_CWEs x) (Vulnerability_Description x) (Vulnerability_Detail x) (Vulnerability_Recommendation x) (Vulnerability_Workaround x) (Vulnerability_ProofOfConcept x) (Vulnerability_Advisories x) (Vulnerability_Created x) (Vulnerability_Published x) (Vulnerability_Updated x) (Vulnerability_Rejected x) (Vulnerability_Credits x) (Vulnerability_Tools x) (Vulnerability_Analysis x) v (Vulnerability_Properties x).
Definition set_Vulnerability_Properties (v : ptr (slice (Property))) (x : Vulnerability) : Vulnerability :=
  mkVulnerability (Vulnerability_BOMRef x) (Vulnerability_ID x) (Vulnerability_Source x) (Vulnerability_References x) (Vulnerability_Ratings x) (Vulnerability_CWEs x) (Vulnerability_Description x) (Vulnerability_Detail x) (Vulnerability_Recommendation x) (Vulnerability_Workaround x) (Vulnerability_ProofOfConcept x) (Vulnerability_Advisories x) (Vulnerability_Created x) (Vulnerability_Published x) (Vulnerability_Updated x) (Vulnerability_Rejected x) (Vulnerability_Credits x) (Vulnerability_Tools x) (Vulnerability_Analysis x) (Vulnerability_Affects x) v.
Definition over_Vulnerability_BOMRef (f : string -> string) (x : Vulnerability) : Vulnerability := set_Vulnerability_BOMRef (f (Vulnerability_BOMRef x)) x.
Definition over_Vulnerability_ID (f : string -> string) (x : Vulnerability) : Vulnerability := set_Vulnerability_ID (f (Vulnerability_ID x)) x.
Definition over_Vulnerability_Source (f : ptr (Source) -> ptr (Source)) (x : Vulnerability) : Vulnerability := set_Vulnerability_Source (f (Vulnerability_Source x)) x.
Definition over_Vulnerability_References (f : ptr (slice (VulnerabilityReference)) -> ptr (slice (VulnerabilityReference))) (x : Vulnerability) : Vulnerability := set_Vulnerability_References (f (Vulnerability_References x)) x.
Definition over_Vulnerability_Ratings (f : ptr (slice (VulnerabilityRating)) -> ptr (slice (VulnerabilityRating))) (x : Vulnerability) : Vulnerability := set_Vulnerability_Ratings (f (Vulnerability_Ratings x)) x.
Definition over_Vulnerability_CWEs (f : ptr (slice (Z)) -> ptr (slice (Z))) (x : Vulnerability) : Vulnerability := set_Vulnerability_CWEs (f (Vulnerability_CWEs x)) x.
Definition over_Vulnerability_Description (f : string -> string) (x : Vulnerability) : Vulnerability := set_Vulnerability_Description (f (Vulnerability_Description x)) x.
Definition over_Vulnerability_Detail (f : string -> string) (x : Vulnerability) : Vulnerability := set_Vulnerability_Detail (f (Vulnerability_Detail x)) x.
Definition over_Vulnerability_Recommendation (f : string -> string) (x : Vulnerability) : Vulnerability := set_Vulnerability_Recommendation (f (Vulnerability_Recommendation x)) x.
Definition over_Vulnerability_Workaround (f : string -> string) (x : Vulnerability) : Vulnerability := set_Vulnerability_Workaround (f (Vulnerability_Workaround x)) x.
Definition over_Vulnerability_ProofOfConcept (f : ptr (ProofOfConcept) -> ptr (ProofOfConcept)) (x : Vulnerability) : Vulnerability := set_Vulnerability_ProofOfConcept (f (Vulnerability_ProofOfConcept x)) x.
Definition over_Vulnerability_Advisories (f : ptr (slice (Advisory)) -> ptr (slice (Advisory))) (x : Vulnerability) : Vulnerability := set_Vulnerability_Advisories (f (Vulnerability_Advisories x)) x.
Definition over_Vulnerability_Created (f : string -> string) (x : Vulnerability) : Vulnerability := set_Vulnerability_Created (f (Vulnerability_Created x)) x.
Definition over_Vulnerability_Published (f : string -> string) (x : Vulnerability) : Vulnerability := set_Vulnerability_Published (f (Vulnerability_Published x)) x.
Definition over_Vulnerability_Updated (f : string -> string) (x : Vulnerability) : Vulnerability := set_Vulnerability_Updated (f (Vulnerability_Updated x)) x.
Definition over_Vulnerability_Rejected (f : string -> string) (x : Vulnerability) : Vulnerability := set_Vulnerability_Rejected (f (Vulnerability_Rejected x)) x.
Definition over_Vulnerability_Credits (f : ptr (Credits) -> ptr (Credits)) (x : Vulnerability) : Vulnerability := set_Vulnerability_Credits (f (Vulnerability_Credits x)) x.
Definition over_Vulnerability_Tools (f : ptr (ToolsChoice) -> ptr (ToolsChoice)) (x : Vulnerability) : Vulnerability := set_Vulnerability_Tools (f (Vulnerability_Tools x)) x.
Definition over_Vulnerability_Analysis (f : ptr (VulnerabilityAnalysis) -> ptr (VulnerabilityAnalysis)) (x : Vulnerability) : Vulnerability := set_Vulnerability_Analysis (f (Vulnerability_Analysis x)) x.
Definition over_Vulnerability_Affects (f : ptr (slice (Affects)) -> ptr (slice (Affects))) (x : Vulnerability) : Vulnerability := set_Vulnerability_Affects (f (Vulnerability_Affects x)) x.
Definition over_Vulnerability_Properties (f : ptr (slice (Property)) -> ptr (slice (Property))) (x : Vulnerability) : Vulnerability := set_Vulnerability_Properties (f (Vulnerability_Properties x)) x.
Definition zero_Vulnerability : Vulnerability := mkVulnerability ("") ("") (None) (None) (None) (None) ("") ("") ("") ("") (None) (None) ("") ("") ("") ("") (None) (None) (None) (None) (None).

(** /repo/cyclonedx.go:1337-1340 *)
Record ResourceReferenceChoice := mkResourceReferenceChoice {
  ResourceReferenceChoice_Ref : string;
  ResourceReferenceChoice_ExternalReference : ptr (ExternalReference)
}.
Definition set_ResourceReferenceChoice_Ref (v : string) (x : ResourceReferenceChoice) : ResourceReferenceChoice :=
  mkResourceReferenceChoice v (ResourceReferenceChoice_ExternalReference x).
Definition set_ResourceReferenceChoice_ExternalReference (v : ptr (ExternalReference)) (x : ResourceReferenceChoice) : ResourceReferenceChoice :=
  mkResourceReferenceChoice (ResourceReferenceChoice_Ref x) v.
Definition over_ResourceReferenceChoice_Ref (f : string -> string) (x : ResourceReferenceChoice) : ResourceReferenceChoice := set_ResourceReferenceChoice_Ref (f (ResourceReferenceChoice_Ref x)) x.
Definition over_ResourceReferenceChoice_ExternalReference (f : ptr (ExternalReference) -> ptr (ExternalReference)) (x : ResourceReferenceChoice) : ResourceReferenceChoice := set_ResourceReferenceChoice_ExternalReference (f (ResourceReferenceChoice_ExternalReference x)) x.
Definition zero_ResourceReferenceChoice : ResourceReferenceChoice := mkResourceReferenceChoice ("") (None).

(** /repo/cyclonedx.go:662-670 *)
Record Event := mkEvent {
  Event_UID : string;
  Event_Description : string;
  Event_TimeReceived : string;
  Event_Data : ptr (AttachedText);
  Event_Source : ptr (ResourceReferenceChoice);
  Event_Target : ptr (ResourceReferenceChoice);
  Event_Properties : ptr (slice (Property))
}.
Definition set_Event_UID (v : string) (x : Event) : Event :=
  mkEvent v (Event_Description x) (Event_TimeReceived x) (Event_Data x) (Event_Source x) (Event_Target x) (Event_Properties x).
Definition set_Event_Description (v : string) (x : Event) : Event :=
  mkEvent (Event_UID x) v (Event_TimeReceived x) (Event_Data x) (Event_Source x) (Event_Target x) (Event_Properties x).
Definition set_Event_TimeReceived (v : string) (x : Event) : Event :=
  mkEvent (Event_UID x) (Event_Description x) v (Event_Data x) (Event_Source x) (Event_Target x) (Event_Properties x).
Definition set_Event_Data (v : ptr (AttachedText)) (x : Event) : Event :=
  mkEvent (Event_UID x) (Event_Description x) (Event_TimeReceived x) v (Event_Source x) (Event_Target x) (Event_Properties x).
Definition set_Event_Source (v : ptr (ResourceReferenceChoice)) (x : Event) : Event :=
  mkEvent (Event_UID x) (Event_Description x) (Event_TimeReceived x) (Event_Data x) v (Event_Target x) (Event_Properties x).
Definition set_Event_Target (v : ptr (ResourceReferenceChoice)) (x : Event) : Event :=
  mkEvent (Event_UID x) (Event_Description x) (Event_TimeReceived x) (Event_Data x) (Event_Source x) v (Event_Properties x).
Definition set_Event_Properties (v : ptr (slice (Property))) (x : Event) : Event :=
  mkEvent (Event_UID x) (Event_Description x) (Event_TimeReceived x) (Event_Data x) (Event_Source x) (Event_Target x) v.
Definition over_Event_UID (f : string -> string) (x : Event) : Event := set_Event_UID (f (Event_UID x)) x.
Definition over_Event_Description (f : string -> string) (x : Event) : Event := set_Event_Description (f (Event_Description x)) x.
Definition over_Event_TimeReceived (f : string -> string) (x : Event) : Event := set_Event_TimeReceived (f (Event_TimeReceived x)) x.
Definition over_Event_Data (f : ptr (AttachedText) -> ptr (AttachedText)) (x : Event) : Event := set_Event_Data (f (Event_Data x)) x.
Definition over_Event_Source (f : ptr (ResourceReferenceChoice) -> ptr (ResourceReferenceChoice)) (x : Event) : Event := set_Event_Source (f (Event_Source x)) x.
Definition over_Event_Target (f : ptr (ResourceReferenceChoice) -> ptr (ResourceReferenceChoice)) (x : Event) : Event := set_Event_Target (f (Event_Target x)) x.
Definition over_Event_Properties (f : ptr (slice (Property)) -> ptr (slice (Property))) (x : Event) : Event := set_Event_Properties (f (Event_Properties x)) x.
Definition zero_Event : Event := mkEvent ("") ("") ("") (None) (None) (None) (None).

(** /repo/cyclonedx.go:1536-1540 *)
Record TaskTriggerCondition := mkTaskTriggerCondition {
  TaskTriggerCondition_Description : string;
  TaskTriggerCondition_Expression : string;
  TaskTriggerCondition_Properties : ptr (slice (Property))
}.
Definition set_TaskTriggerCondition_Description (v : string) (x : TaskTriggerCondition) : TaskTriggerCondition :=
  mkTaskTriggerCondition v (TaskTriggerCondition_Expression x) (TaskTriggerCondition_Properties x).
Definition set_TaskTriggerCondition_Expression (v : string) (x : TaskTriggerCondition) : TaskTriggerCondition :=
  mkTaskTriggerCondition (TaskTriggerCondition_Description x) v (TaskTriggerCondition_Properties x).
Definition set_TaskTriggerCondition_Properties (v : ptr (slice (Property))) (x : TaskTriggerCondition) : TaskTriggerCondition :=
  mkTaskTriggerCondition (TaskTriggerCondition_Description x) (TaskTriggerCondition_Expression x) v.
Definition over_TaskTriggerCondition_Description (f : string -> string) (x : TaskTriggerCondition) : TaskTriggerCondition := set_TaskTriggerCondition_Description (f (TaskTriggerCondition_Description x)) x.
Definition over_TaskTriggerCondition_Expression (f : string -> string) (x : TaskTriggerCondition) : TaskTriggerCondition := set_TaskTriggerCondition_Expression (f (TaskTriggerCondition_Expression x)) x.
Definition over_TaskTriggerCondition_Properties (f : ptr (slice (Property)) -> ptr (slice (Property))) (x : TaskTriggerCondition) : TaskTriggerCondition := set_TaskTriggerCondition_Properties (f (TaskTriggerCondition_Properties x)) x.
Definition zero_TaskTriggerCondition : TaskTriggerCondition := mkTaskTriggerCondition ("") ("") (None).

(** /repo/cyclonedx.go:1231-1235 *)
Record Parameter_t := mkParameter_t {
  Parameter_t_Name : string;
  Parameter_t_Value : string;
  Parameter_t_DataType : string
}.
Definition set_Parameter_t_Name (v : string) (x : Parameter_t) : Parameter_t :=
  mkParameter_t v (Parameter_t_Value x) (Parameter_t_DataType x).
Definition set_Parameter_t_Value (v : string) (x : Parameter_t) : Parameter_t :=
  mkParameter_t (Parameter_t_Name x) v (Parameter_t_DataType x).
Definition set_Parameter_t_DataType (v : string) (x : Parameter_t) : Parameter_t :=
  mkParameter_t (Parameter_t_Name x) (Parameter_t_Value x) v.
Definition over_Parameter_t_Name (f : string -> string) (x : Parameter_t) : Parameter_t := set_Parameter_t_Name (f (Parameter_t_Name x)) x.
Definition over_Parameter_t_Value (f : string -> string) (x : Parameter_t) : Parameter_t := set_Parameter_t_Value (f (Parameter_t_Value x)) x.
Definition over_Parameter_t_DataType (f : string -> string) (x : Parameter_t) : Parameter_t := set_Parameter_t_DataType (f (Parameter_t_DataType x)) x.
Definition zero_Parameter_t : Parameter_t := mkParameter_t ("") ("") ("").

(** /repo/cyclonedx.go:1482-1490 *)
Record TaskInput := mkTaskInput {
  TaskInput_Resource : ptr (ResourceReferenceChoice);
  TaskInput_Parameters : ptr (slice (Parameter_t));
  TaskInput_EnvironmentVars : ptr (EnvironmentVariables);
  TaskInput_Data : ptr (AttachedText);
  TaskInput_Source : ptr (ResourceReferenceChoice);
  TaskInput_Target : ptr (ResourceReferenceChoice);
  TaskInput_Properties : ptr (slice (Property))
}.
Definition set_TaskInput_Resource (v : ptr (ResourceReferenceChoice)) (x : TaskInput) : TaskInput :=
  mkTaskInput v (TaskInput_Parameters x) (TaskInput_EnvironmentVars x) (TaskInput_Data x) (TaskInput_Source x) (TaskInput_Target x) (TaskInput_Properties x).
Definition set_TaskInput_Parameters (v : ptr (slice (Parameter_t))) (x : TaskInput) : TaskInput :=
  mkTaskInput (TaskInput_Resource x) v (TaskInput_EnvironmentVars x) (TaskInput_Data x) (TaskInput_Source x) (TaskInput_Target x) (TaskInput_Properties x).
Definition set_TaskInput_EnvironmentVars (v : ptr (EnvironmentVariables)) (x : TaskInput) : TaskInput :=
  mkTaskInput (TaskInput_Resource x) (TaskInput_Parameters x) v (TaskInput_Data x) (TaskInput_Source x) (TaskInput_Target x) (TaskInput_Properties x).
Definition set_TaskInput_Data (v : ptr (AttachedText)) (x : TaskInput) : TaskInput :=
  mkTaskInput (TaskInput_Resource x) (TaskInput_Parameters x) (TaskInput_EnvironmentVars x) v (TaskInput_Source x) (TaskInput_Target x) (TaskInput_Properties x).
Definition set_TaskInput_Source (v : ptr (ResourceReferenceChoice)) (x : TaskInput) : TaskInput :=
  mkTaskInput (TaskInput_Resource x) (TaskInput_Parameters x) (TaskInput_EnvironmentVars x) (TaskInput_Data x) v (TaskInput_Target x) (TaskInput_Properties x).
Definition set_TaskInput_Target (v : ptr (ResourceReferenceChoice)) (x : TaskInput) : TaskInput :=
  mkTaskInput (TaskInput_Resource x) (TaskInput_Parameters x) (TaskInput_EnvironmentVars x) (TaskInput_Data x) (TaskInput_Source x) v (TaskInput_Properties x).
Definition set_TaskInput_Properties (v : ptr (slice (Property))) (x : TaskInput) : TaskInput :=
  mkTaskInput (TaskInput_Resource x) (TaskInput_Parameters x) (TaskInput_EnvironmentVars x) (TaskInput_Data x) (TaskInput_Source x) (TaskInput_Target x) v.
Definition over_TaskInput_Resource (f : ptr (ResourceReferenceChoice) -> ptr (ResourceReferenceChoice)) (x : TaskInput) : TaskInput := set_TaskInput_Resource (f (TaskInput_Resource x)) x.
Definition over_TaskInput_Parameters (f : ptr (slice (Parameter_t)) -> ptr (slice (Parameter_t))) (x : TaskInput) : TaskInput := set_TaskInput_Parameters (f (TaskInput_Parameters x)) x.
Definition over_TaskInput_EnvironmentVars (f : ptr (EnvironmentVariables) -> ptr (EnvironmentVariables)) (x : TaskInput) : TaskInput := set_TaskInput_EnvironmentVars (f (TaskInput_EnvironmentVars x)) x.
Definition over_TaskInput_Data (f : ptr (AttachedText) -> ptr (AttachedText)) (x : TaskInput) : TaskInput := set_TaskInput_Data (f (TaskInput_Data x)) x.
Definition over_TaskInput_Source (f : ptr (ResourceReferenceChoice) -> ptr (ResourceReferenceChoice)) (x : TaskInput) : TaskInput := set_TaskInput_Source (f (TaskInput_Source x)) x.
Definition over_TaskInput_Target (f : ptr (ResourceReferenceChoice) -> ptr (ResourceReferenceChoice)) (x : TaskInput) : TaskInput := set_TaskInput_Target (f (TaskInput_Target x)) x.
Definition over_TaskInput_Properties (f : ptr (slice (Property)) -> ptr (slice (Property))) (x : TaskInput) : TaskInput := set_TaskInput_Properties (f (TaskInput_Properties x)) x.
Definition zero_TaskInput : TaskInput := mkTaskInput (None) (None) (None) (None) (None) (None) (None).

(** /repo/cyclonedx.go:1492-1501 *)
Record TaskOutput := mkTaskOutput {
  TaskOutput_Resource : ptr (ResourceReferenceChoice);
  TaskOutput_Parameters : ptr (slice (Parameter_t));
  TaskOutput_EnvironmentVars : ptr (EnvironmentVariables);
  TaskOutput_Data : ptr (AttachedText);
  TaskOutput_Type : TaskOutputType;
  TaskOutput_Source : ptr (ResourceReferenceChoice);
  TaskOutput_Target : ptr (ResourceReferenceChoice);
  TaskOutput_Properties : ptr (slice (Property))
}.
Definition set_TaskOutput_Resource (v : ptr (ResourceReferenceChoice)) (x : TaskOutput) : TaskOutput :=
  mkTaskOutput v (TaskOutput_Parameters x) (TaskOutput_EnvironmentVars x) (TaskOutput_Data x) (TaskOutput_Type x) (TaskOutput_Source x) (TaskOutput_Target x) (TaskOutput_Properties x).
Definition set_TaskOutput_Parameters (v : ptr (slice (Parameter_t))) (x : TaskOutput) : TaskOutput :=
  mkTaskOutput (TaskOutput_Resource x) v (TaskOutput_EnvironmentVars x) (TaskOutput_Data x) (TaskOutput_Type x) (TaskOutput_Source x) (TaskOutput_Target x) (TaskOutput_Properties x).
Definition set_TaskOutput_EnvironmentVars (v : ptr (EnvironmentVariables)) (x : TaskOutput) : TaskOutput :=
  mkTaskOutput (TaskOutput_Resource x) (TaskOutput_Parameters x) v (TaskOutput_Data x) (TaskOutput_Type x) (TaskOutput_Source x) (TaskOutput_Target x) (TaskOutput_Properties x).
Definition set_TaskOutput_Data (v : ptr (AttachedText)) (x : TaskOutput) : TaskOutput :=
  mkTaskOutput (TaskOutput_Resource x) (TaskOutput_Parameters x) (TaskOutput_EnvironmentVars x) v (TaskOutput_Type x) (TaskOutput_Source x) (TaskOutput_Target x) (TaskOutput_Properties x).
Definition set_TaskOutput_Type (v : TaskOutputType) (x : TaskOutput) : TaskOutput :=
  mkTaskOutput (TaskOutput_Resource x) (TaskOutput_Parameters x) (TaskOutput_EnvironmentVars x) (TaskOutput_Data x) v (TaskOutput_Source x) (TaskOutput_Target x) (TaskOutput_Properties x).
Definition set_TaskOutput_Source (v : ptr (ResourceReferenceChoice)) (x : TaskOutput) : TaskOutput :=
  mkTaskOutput (TaskOutput_Resource x) (TaskOutput_Parameters x) (TaskOutput_EnvironmentVars x) (TaskOutput_Data x) (TaskOutput_Type x) v (TaskOutput_Target x) (TaskOutput_Properties x).
Definition set_TaskOutput_Target (v : ptr (ResourceReferenceChoice)) (x : TaskOutput) : TaskOutput :=
  mkTaskOutput (TaskOutput_Resource x) (TaskOutput_Parameters x) (TaskOutput_EnvironmentVars x) (TaskOutput_Data x) (TaskOutput_Type x) (TaskOutput_Source x) v (TaskOutput_Properties x).
Definition set_TaskOutput_Properties (v : ptr (slice (Property))) (x : TaskOutput) : TaskOutput :=
  mkTaskOutput (TaskOutput_Resource x) (TaskOutput_Parameters x) (TaskOutput_EnvironmentVars x) (TaskOutput_Data x) (TaskOutput_Type x) (TaskOutput_Source x) (TaskOutput_Target x) v.
Definition over_TaskOutput_Resource (f : ptr (ResourceReferenceChoice) -> ptr (ResourceReferenceChoice)) (x : TaskOutput) : TaskOutput := set_TaskOutput_Resource (f (TaskOutput_Resource x)) x.
Definition over_TaskOutput_Parameters (f : ptr (slice (Parameter_t)) -> ptr (slice (Parameter_t))) (x : TaskOutput) : TaskOutput := set_TaskOutput_Parameters (f (TaskOutput_Parameters x)) x.
Definition over_TaskOutput_EnvironmentVars (f : ptr (EnvironmentVariables) -> ptr (EnvironmentVariables)) (x : TaskOutput) : TaskOutput := set_TaskOutput_EnvironmentVars (f (TaskOutput_EnvironmentVars x)) x.
Definition over_TaskOutput_Data (f : ptr (AttachedText) -> ptr (AttachedText)) (x : TaskOutput) : TaskOutput := set_TaskOutput_Data (f (TaskOutput_Data x)) x.
Definition over_TaskOutput_Type (f : TaskOutputType -> TaskOutputType) (x : TaskOutput) : TaskOutput := set_TaskOutput_Type (f (TaskOutput_Type x)) x.
Definition over_TaskOutput_Source (f : ptr (ResourceReferenceChoice) -> ptr (ResourceReferenceChoice)) (x : TaskOutput) : TaskOutput := set_TaskOutput_Source (f (TaskOutput_Source x)) x.
Definition over_TaskOutput_Target (f : ptr (ResourceReferenceChoice) -> ptr (ResourceReferenceChoice)) (x : TaskOutput) : TaskOutput := set_TaskOutput_Target (f (TaskOutput_Target x)) x.
Definition over_TaskOutput_Properties (f : ptr (slice (Property)) -> ptr (slice (Property))) (x : TaskOutput) : TaskOutput := set_TaskOutput_Properties (f (TaskOutput_Properties x)) x.
Definition zero_TaskOutput : TaskOutput := mkTaskOutput (None) (None) (None) (None) ("") (None) (None) (None).

(** /repo/cyclonedx.go:1521-1534 *)
Record TaskTrigger := mkTaskTrigger {
  TaskTrigger_BOMRef : string;
  TaskTrigger_UID : string;
  TaskTrigger_Name : string;
  TaskTrigger_Description : string;
  TaskTrigger_ResourceReferences : ptr (slice (ResourceReferenceChoice));
  TaskTrigger_Type : TaskTriggerType;
  TaskTrigger_Event : ptr (Event);
  TaskTrigger_Conditions : ptr (slice (TaskTriggerCondition));
  TaskTrigger_TimeActivated : string;
  TaskTrigger_Inputs : ptr (slice (TaskInput));
  TaskTrigger_Outputs : ptr (slice (TaskOutput));
  TaskTrigger_Properties : ptr (slice (Property))
}.
Definition set_TaskTrigger_BOMRef (v : string) (x : TaskTrigger) : TaskTrigger :=
  mkTaskTrigger v (TaskTrigger_UID x) (TaskTrigger_Name x) (TaskTrigger_Description x) (TaskTrigger_ResourceReferences x) (TaskTrigger_Type x) (TaskTrigger_Event x) (TaskTrigger_Conditions x) (TaskTrigger_TimeActivated x) (TaskTrigger_Inputs x) (TaskTrigger_Outputs x) (TaskTrigger_Properties x).
Definition set_TaskTrigger_UID (v : string) (x : TaskTrigger) : TaskTrigger :=
  mkTaskTrigger (TaskTrigger_BOMRef x) v (TaskTrigger_Name x) (TaskTrigger_Description x) (TaskTrigger_ResourceReferences x) (TaskTrigger_Type x) (TaskTrigger_Event x) (TaskTrigger_Conditions x) (TaskTrigger_TimeActivated x) (TaskTrigger_Inputs x) (TaskTrigger_Outputs x) (TaskTrigger_Properties x).
Definition set_TaskTrigger_Name (v : string) (x : TaskTrigger) : TaskTrigger :=
  mkTaskTrigger (TaskTrigger_BOMRef x) (TaskTrigger_UID x) v (TaskTrigger_Description x) (TaskTrigger_ResourceReferences x) (TaskTrigger_Type x) (TaskTrigger_Event x) (TaskTrigger_Conditions x) (TaskTrigger_TimeActivated x) (TaskTrigger_Inputs x) (TaskTrigger_Outputs x) (TaskTrigger_Properties x).
Definition set_TaskTrigger_Description (v : string) (x : TaskTrigger) : TaskTrigger :=
  mkTaskTrigger (TaskTrigger_BOMRef x) (TaskTrigger_UID x) (TaskTrigger_Name x) v (TaskTrigger_ResourceReferences x) (TaskTrigger_Type x) (TaskTrigger_Event x) (TaskTrigger_Conditions x) (TaskTrigger_TimeActivated x) (TaskTrigger_Inputs x) (TaskTrigger_Outputs x) (TaskTrigger_Properties x).
Definition set_TaskTrigger_ResourceReferences (v : ptr (slice (ResourceReferenceChoice))) (x : TaskTrigger) : TaskTrigger :=
  mkTaskTrigger (TaskTrigger_BOMRef x) (TaskTrigger_UID x) (TaskTrigger_Name x) (TaskTrigger_Description x) v (TaskTrigger_Type x) (TaskTrigger_Event x) (TaskTrigger_Conditions x) (TaskTrigger_TimeActivated x) (TaskTrigger_Inputs x) (TaskTrigger_Outputs x) (TaskTrigger_Properties x).
Definition set_TaskTrigger_Type (v : TaskTriggerType) (x : TaskTrigger) : TaskTrigger :=
  mkTaskTrigger (TaskTrigger_BOMRef x) (TaskTrigger_UID x) (TaskTrigger_Name x) (TaskTrigger_Description x) (TaskTrigger_ResourceReferences x) v (TaskTrigger_Event x) (TaskTrigger_Conditions x) (TaskTrigger_TimeActivated x) (TaskTrigger_Inputs x) (TaskTrigger_Outputs x) (TaskTrigger_Properties x).
Definition set_TaskTrigger_Event (v : ptr (Event)) (x : TaskTrigger) : TaskTrigger :=
  mkTaskTrigger (TaskTrigger_BOMRef x) (TaskTrigger_UID x) (TaskTrigger_Name x) (TaskTrigger_Description x) (TaskTrigger_ResourceReferences x) (TaskTrigger_Type x) v (TaskTrigger_Conditions x) (TaskTrigger_TimeActivated x) (TaskTrigger_Inputs x) (TaskTrigger_Outputs x) (TaskTrigger_Properties x).
Definition set_TaskTrigger_Conditions (v : ptr (slice (TaskTriggerCondition))) (x : TaskTrigger) : TaskTrigger :=
  mkTaskTrigger (TaskTrigger_BOMRef x) (TaskTrigger_UID x) (TaskTrigger_Name x) (TaskTrigger_Description x) (TaskTrigger_ResourceReferences x) (TaskTrigger_Type x) (TaskTrigger_Event x) v (TaskTrigger_TimeActivated x) (TaskTrigger_Inputs x) (TaskTrigger_Outputs x) (TaskTrigger_Properties x).
Definition set_TaskTrigger_TimeActivated (v : string) (x : TaskTrigger) : TaskTrigger :=
  mkTaskTrigger (TaskTrigger_BOMRef x) (TaskTrigger_UID x) (TaskTrigger_Name x) (TaskTrigger_Description x) (TaskTrigger_ResourceReferences x) (TaskTrigger_Type x) (TaskTrigger_Event x) (TaskTrigger_Conditions x) v (TaskTrigger_Inputs x) (TaskTrigger_Outputs x) (TaskTrigger_Properties x).
Definition set_TaskTrigger_Inputs (v : ptr (slice (TaskInput))) (x : TaskTrigger) : TaskTrigger :=
  mkTaskTrigger (TaskTrigger_BOMRef x) (TaskTrigger_UID x) (TaskTrigger_Name x) (TaskTrigger_Description x) (TaskTrigger_ResourceReferences x) (TaskTrigger_Type x) (TaskTrigger_Event x) (TaskTrigger_Conditions x) (TaskTrigger_TimeActivated x) v (TaskTrigger_Outputs x) (TaskTrigger_Properties x).
Definition set_TaskTrigger_Outputs (v : ptr (slice (TaskOutput))) (x : TaskTrigger) : TaskTrigger :=
  mkTaskTrigger (TaskTrigger_BOMRef x) (TaskTrigger_UID x) (TaskTrigger_Name x) (TaskTrigger_Description x) (TaskTrigger_ResourceReferences x) (TaskTrigger_Type x) (TaskTrigger_Event x) (TaskTrigger_Conditions x) (TaskTrigger_TimeActivated x) (TaskTrigger_Inputs x) v (TaskTrigger_Properties x).
Definition set_TaskTrigger_Properties (v : ptr (slice (Property))) (x : TaskTrigger) : TaskTrigger :=
  mkTaskTrigger (TaskTrigger_BOMRef x) (TaskTrigger_UID x) (TaskTrigger_Name x) (TaskTrigger_Description x) (TaskTrigger_ResourceReferences x) (TaskTrigger_Type x) (TaskTrigger_Event x) (TaskTrigger_Conditions x) (TaskTrigger_TimeActivated x) (TaskTrigger_Inputs x) (TaskTrigger_Outputs x) v.
Definition over_TaskTrigger_BOMRef (f : string -> string) (x : TaskTrigger) : TaskTrigger := set_TaskTrigger_BOMRef (f (TaskTrigger_BOMRef x)) x.
Definition over_TaskTrigger_UID (f : string -> string) (x : TaskTrigger) : TaskTrigger := set_TaskTrigger_UID (f (TaskTrigger_UID x)) x.
Definition over_TaskTrigger_Name (f : string -> string) (x : TaskTrigger) : TaskTrigger := set_TaskTrigger_Name (f (TaskTrigger_Name x)) x.
Definition over_TaskTrigger_Description (f : string -> string) (x : TaskTrigger) : TaskTrigger := set_TaskTrigger_Description (f (TaskTrigger_Description x)) x.
Definition over_TaskTrigger_ResourceReferences (f : ptr (slice (ResourceReferenceChoice)) -> ptr (slice (ResourceReferenceChoice))) (x : TaskTrigger) : TaskTrigger := set_TaskTrigger_ResourceReferences (f (TaskTrigger_ResourceReferences x)) x.
Definition over_TaskTrigger_Type (f : TaskTriggerType -> TaskTriggerType) (x : TaskTrigger) : TaskTrigger := set_TaskTrigger_Type (f (TaskTrigger_Type x)) x.
Definition over_TaskTrigger_Event (f : ptr (Event) -> ptr (Event)) (x : TaskTrigger) : TaskTrigger := set_TaskTrigger_Event (f (TaskTrigger_Event x)) x.
Definition over_TaskTrigger_Conditions (f : ptr (slice (TaskTriggerCondition)) -> ptr (slice (TaskTriggerCondition))) (x : TaskTrigger) : TaskTrigger := set_TaskTrigger_Conditions (f (TaskTrigger_Conditions x)) x.
Definition over_TaskTrigger_TimeActivated (f : string -> string) (x : TaskTrigger) : TaskTrigger := set_TaskTrigger_TimeActivated (f (TaskTrigger_TimeActivated x)) x.
Definition over_TaskTrigger_Inputs (f : ptr (slice (TaskInput)) -> ptr (slice (TaskInput))) (x : TaskTrigger) : TaskTrigger := set_TaskTrigger_Inputs (f (TaskTrigger_Inputs x)) x.
Definition over_TaskTrigger_Outputs (f : ptr (slice (TaskOutput)) -> ptr (slice (TaskOutput))) (x : TaskTrigger) : TaskTrigger := set_TaskTrigger_Outputs (f (TaskTrigger_Outputs x)) x.
Definition over_TaskTrigger_Properties (f : ptr (slice (Property)) -> ptr (slice (Property))) (x : TaskTrigger) : TaskTrigger := set_TaskTrigger_Properties (f (TaskTrigger_Properties x)) x.
Definition zero_TaskTrigger : TaskTrigger := mkTaskTrigger ("") ("") ("") ("") (None) ("") (None) (None) ("") (None) (None) (None).

(** /repo/cyclonedx.go:1477-1480 *)
Record TaskCommand := mkTaskCommand {
  TaskCommand_Executed : string;
  TaskCommand_Properties : ptr (slice (Property))
}.
Definition set_TaskCommand_Executed (v : string) (x : TaskCommand) : TaskCommand :=
  mkTaskCommand v (TaskCommand_Properties x).
Definition set_TaskCommand_Properties (v : ptr (slice (Property))) (x : TaskCommand) : TaskCommand :=
  mkTaskCommand (TaskCommand_Executed x) v.
Definition over_TaskCommand_Executed (f : string -> string) (x : TaskCommand) : TaskCommand := set_TaskCommand_Executed (f (TaskCommand_Executed x)) x.
Definition over_TaskCommand_Properties (f : ptr (slice (Property)) -> ptr (slice (Property))) (x : TaskCommand) : TaskCommand := set_TaskCommand_Properties (f (TaskCommand_Properties x)) x.
Definition zero_TaskCommand : TaskCommand := mkTaskCommand ("") (None).

(** /repo/cyclonedx.go:1514-1519 *)
Record TaskStep := mkTaskStep {
  TaskStep_Name : string;
  TaskStep_Description : string;
  TaskStep_Commands : ptr (slice (TaskCommand));
  TaskStep_Properties : ptr (slice (Property))
}.
Definition set_TaskStep_Name (v : string) (x : TaskStep) : TaskStep :=
  mkTaskStep v (TaskStep_Description x) (TaskStep_Commands x) (TaskStep_Properties x).
Definition set_TaskStep_Description (v : string) (x : TaskStep) : TaskStep :=
  mkTaskStep (TaskStep_Name x) v (TaskStep_Commands x) (TaskStep_Properties x).
Definition set_TaskStep_Commands (v : ptr (slice (TaskCommand))) (x : TaskStep) : TaskStep :=
  mkTaskStep (TaskStep_Name x) (TaskStep_Description x) v (TaskStep_Properties x).
Definition set_TaskStep_Properties (v : ptr (slice (Property))) (x : TaskStep) : TaskStep :=
  mkTaskStep (TaskStep_Name x) (TaskStep_Description x) (TaskStep_Commands x) v.
Definition over_TaskStep_Name (f : string -> string) (x : TaskStep) : TaskStep := set_TaskStep_Name (f (TaskStep_Name x)) x.
Definition over_TaskStep_Description (f : string -> string) (x : TaskStep) : TaskStep := set_TaskStep_Description (f (TaskStep_Description x)) x.
Definition over_TaskStep_Commands (f : ptr (slice (TaskCommand)) -> ptr (slice (TaskCommand))) (x : TaskStep) : TaskStep := set_TaskStep_Commands (f (TaskStep_Commands x)) x.
Definition over_TaskStep_Properties (f : ptr (slice (Property)) -> ptr (slice (Property))) (x : TaskStep) : TaskStep := set_TaskStep_Properties (f (TaskStep_Properties x)) x.
Definition zero_TaskStep : TaskStep := mkTaskStep ("") ("") (None) (None).

(** /repo/cyclonedx.go:1616-1625 *)
Record Volume := mkVolume {
  Volume_UID : string;
  Volume_Name : string;
  Volume_Mode : VolumeMode;
  Volume_Path : string;
  Volume_SizeAllocated : string;
  Volume_Persistent : ptr (bool);
  Volume_Remote : ptr (bool);
  Volume_Properties : ptr (slice (Property))
}.
Definition set_Volume_UID (v : string) (x : Volume) : Volume :=
  mkVolume v (Volume_Name x) (Volume_Mode x) (Volume_Path x) (Volume_SizeAllocated x) (Volume_Persistent x) (Volume_Remote x) (Volume_Properties x).
Definition set_Volume_Name (v : string) (x : Volume) : Volume :=
  mkVolume (Volume_UID x) v (Volume_Mode x) (Volume_Path x) (Volume_SizeAllocated x) (Volume_Persistent x) (Volume_Remote x) (Volume_Properties x).
Definition set_Volume_Mode (v : VolumeMode) (x : Volume) : Volume :=
  mkVolume (Volume_UID x) (Volume_Name x) v (Volume_Path x) (Volume_SizeAllocated x) (Volume_Persistent x) (Volume_Remote x) (Volume_Properties x).
Definition set_Volume_Path (v : string) (x : Volume) : Volume :=
  mkVolume (Volume_UID x) (Volume_Name x) (Volume_Mode x) v (Volume_SizeAllocated x) (Volume_Persistent x) (Volume_Remote x) (Volume_Properties x).
Definition set_Volume_SizeAllocated (v : string) (x : Volume) : Volume :=
  mkVolume (Volume_UID x) (Volume_Name x) (Volume_Mode x) (Volume_Path x) v (Volume_Persistent x) (Volume_Remote x) (Volume_Properties x).
Definition set_Volume_Persistent (v : ptr (bool)) (x : Volume) : Volume :=
  mkVolume (Volume_UID x) (Volume_Name x) (Volume_Mode x) (Volume_Path x) (Volume_SizeAllocated x) v (Volume_Remote x) (Volume_Properties x).
Definition set_Volume_Remote (v : ptr (bool)) (x : Volume) : Volume :=
  mkVolume (Volume_UID x) (Volume_Name x) (Volume_Mode x) (Volume_Path x) (Volume_SizeAllocated x) (Volume_Persistent x) v (Volume_Properties x).
Definition set_Volume_Properties (v : ptr (slice (Property))) (x : Volume) : Volume :=
  mkVolume (Volume_UID x) (Volume_Name x) (Volume_Mode x) (Volume_Path x) (Volume_SizeAllocated x) (Volume_Persistent x) (Volume_Remote x) v.
Definition over_Volume_UID (f : string -> string) (x : Volume) : Volume := set_Volume_UID (f (Volume_UID x)) x.
Definition over_Volume_Name (f : string -> string) (x : Volume) : Volume := set_Volume_Name (f (Volume_Name x)) x.
Definition over_Volume_Mode (f : VolumeMode -> VolumeMode) (x : Volume) : Volume := set_Volume_Mode (f (Volume_Mode x)) x.
Definition over_Volume_Path (f : string -> string) (x : Volume) : Volume := set_Volume_Path (f (Volume_Path x)) x.
Definition over_Volume_SizeAllocated (f : string -> string) (x : Volume) : Volume := set_Volume_SizeAllocated (f (Volume_SizeAllocated x)) x.
Definition over_Volume_Persistent (f : ptr (bool) -> ptr (bool)) (x : Volume) : Volume := set_Volume_Persistent (f (Volume_Persistent x)) x.
Definition over_Volume_Remote (f : ptr (bool) -> ptr (bool)) (x : Volume) : Volume := set_Volume_Remote (f (Volume_Remote x)) x.
Definition over_Volume_Properties (f : ptr (slice (Property)) -> ptr (slice (Property))) (x : Volume) : Volume := set_Volume_Properties (f (Volume_Properties x)) x.
Definition zero_Volume : Volume := mkVolume ("") ("") ("") ("") ("") (None) (None) (None).

(** /repo/cyclonedx.go:1568-1581 *)
Record TaskWorkspace := mkTaskWorkspace {
  TaskWorkspace_BOMRef : string;
  TaskWorkspace_UID : string;
  TaskWorkspace_Name : string;
  TaskWorkspace_Aliases : ptr (slice (string));
  TaskWorkspace_Description : string;
  TaskWorkspace_ResourceReferences : ptr (slice (ResourceReferenceChoice));
  TaskWorkspace_AccessMode : TaskWorkspaceAccessMode;
  TaskWorkspace_MountPath : string;
  TaskWorkspace_ManagedDataType : string;
  TaskWorkspace_VolumeRequest : string;
  TaskWorkspace_Volume : ptr (Volume);
  TaskWorkspace_Properties : ptr (slice (Property))
}.
Definition set_TaskWorkspace_BOMRef (v : string) (x : TaskWorkspace) : TaskWorkspace :=
  mkTaskWorkspace v (TaskWorkspace_UID x) (TaskWorkspace_Name x) (TaskWorkspace_Aliases x) (TaskWorkspace_Description x) (TaskWorkspace_ResourceReferences x) (TaskWorkspace_AccessMode x) (TaskWorkspace_MountPath x) (TaskWorkspace_ManagedDataType x) (TaskWorkspace_VolumeRequest x) (TaskWorkspace_Volume x) (TaskWorkspace_Properties x).
Definition set_TaskWorkspace_UID (v : string) (x : TaskWorkspace) : TaskWorkspace :=
  mkTaskWorkspace (TaskWorkspace_BOMRef x) v (TaskWorkspace_Name x) (TaskWorkspace_Aliases x) (TaskWorkspace_Description x) (TaskWorkspace_ResourceReferences x) (TaskWorkspace_AccessMode x) (TaskWorkspace_MountPath x) (TaskWorkspace_ManagedDataType x) (TaskWorkspace_VolumeRequest x) (TaskWorkspace_Volume x) (TaskWorkspace_Properties x).
Definition set_TaskWorkspace_Name (v : string) (x : TaskWorkspace) : TaskWorkspace :=
  mkTaskWorkspace (TaskWorkspace_BOMRef x) (TaskWorkspace_UID x) v (TaskWorkspace_Aliases x) (TaskWorkspace_Description x) (TaskWorkspace_ResourceReferences x) (TaskWorkspace_AccessMode x) (TaskWorkspace_MountPath x) (TaskWorkspace_ManagedDataType x) (TaskWorkspace_VolumeRequest x) (TaskWorkspace_Volume x) (TaskWorkspace_Properties x).
Definition set_TaskWorkspace_Aliases (v : ptr (slice (string))) (x : TaskWorkspace) : TaskWorkspace :=
  mkTaskWorkspace (TaskWorkspace_BOMRef x) (TaskWorkspace_UID x) (TaskWorkspace_Name x) v (TaskWorkspace_Description x) (TaskWorkspace_ResourceReferences x) (TaskWorkspace_AccessMode x) (TaskWorkspace_MountPath x) (TaskWorkspace_ManagedDataType x) (TaskWorkspace_VolumeRequest x) (TaskWorkspace_Volume x) (TaskWorkspace_Properties x).
Definition set_TaskWorkspace_Description (v : string) (x : TaskWorkspace) : TaskWorkspace :=
  mkTaskWorkspace (TaskWorkspace_BOMRef x) (TaskWorkspace_UID x) (TaskWorkspace_Name x) (TaskWorkspace_Aliases x) v (TaskWorkspace_ResourceReferences x) (TaskWorkspace_AccessMode x) (TaskWorkspace_MountPath x) (TaskWorkspace_ManagedDataType x) (TaskWorkspace_VolumeRequest x) (TaskWorkspace_Volume x) (TaskWorkspace_Properties x).
Definition set_TaskWorkspace_ResourceReferences (v : ptr (slice (ResourceReferenceChoice))) (x : TaskWorkspace) : TaskWorkspace :=
  mkTaskWorkspace (TaskWorkspace_BOMRef x) (TaskWorkspace_UID x) (TaskWorkspace_Name x) (TaskWorkspace_Aliases x) (TaskWorkspace_Description x) v (TaskWorkspace_AccessMode x) (TaskWorkspace_MountPath x) (TaskWorkspace_ManagedDataType x) (TaskWorkspace_VolumeRequest x) (TaskWorkspace_Volume x) (TaskWorkspace_Properties x).
Definition set_TaskWorkspace_AccessMode (v : TaskWorkspaceAccessMode) (x : TaskWorkspace) : TaskWorkspace :=
  mkTaskWorkspace (TaskWorkspace_BOMRef x) (TaskWorkspace_UID x) (TaskWorkspace_Name x) (TaskWorkspace_Aliases x) (TaskWorkspace_Description x) (TaskWorkspace_ResourceReferences x) v (TaskWorkspace_MountPath x) (TaskWorkspace_ManagedDataType x) (TaskWorkspace_VolumeRequest x) (TaskWorkspace_Volume x) (TaskWorkspace_Properties x).
Definition set_TaskWorkspace_MountPath (v : string) (x : TaskWorkspace) : TaskWorkspace :=
  mkTaskWorkspace (TaskWorkspace_BOMRef x) (TaskWorkspace_UID x) (TaskWorkspace_Name x) (TaskWorkspace_Aliases x) (TaskWorkspace_Description x) (TaskWorkspace_ResourceReferences x) (TaskWorkspace_AccessMode x) v (TaskWorkspace_ManagedDataType x) (TaskWorkspace_VolumeRequest x) (TaskWorkspace_Volume x) (TaskWorkspace_Properties x).
Definition set_TaskWorkspace_ManagedDataType (v : string) (x : TaskWorkspace) : TaskWorkspace :=
  mkTaskWorkspace (TaskWorkspace_BOMRef x) (TaskWorkspace_UID x) (TaskWorkspace_Name x) (TaskWorkspace_Aliases x) (TaskWorkspace_Description x) (TaskWorkspace_ResourceReferences x) (TaskWorkspace_AccessMode x) (TaskWorkspace_MountPath x) v (TaskWorkspace_VolumeRequest x) (TaskWorkspace_Volume x) (TaskWorkspace_Properties x).
Definition set_TaskWorkspace_VolumeRequest (v : string) (x : TaskWorkspace) : TaskWorkspace :=
  mkTaskWorkspace (TaskWorkspace_BOMRef x) (TaskWorkspace_UID x) (TaskWorkspace_Name x) (TaskWorkspace_Aliases x) (TaskWorkspace_Description x) (TaskWorkspace_ResourceReferences x) (TaskWorkspace_AccessMode x) (TaskWorkspace_MountPath x) (TaskWorkspace_ManagedDataType x) v (TaskWorkspace_Volume x) (TaskWorkspace_Properties x).
Definition set_TaskWorkspace_Volume (v : ptr (Volume)) (x : TaskWorkspace) : TaskWorkspace :=
  mkTaskWorkspace (TaskWorkspace_BOMRef x) (TaskWorkspace_UID x) (TaskWorkspace_Name x) (TaskWorkspace_Aliases x) (TaskWorkspace_Description x) (TaskWorkspace_ResourceReferences x) (TaskWorkspace_AccessMode x) (TaskWorkspace_MountPath x) (TaskWorkspace_ManagedDataType x) (TaskWorkspace_VolumeRequest x) v (TaskWorkspace_Properties x).
Definition set_TaskWorkspace_Properties (v : ptr (slice (Property))) (x : TaskWorkspace) : TaskWorkspace :=
  mkTaskWorkspace (TaskWorkspace_BOMRef x) (TaskWorkspace_UID x) (TaskWorkspace_Name x) (TaskWorkspace_Aliases x) (TaskWorkspace_Description x) (TaskWorkspace_ResourceReferences x) (TaskWorkspace_AccessMode x) (TaskWorkspace_MountPath x) (TaskWorkspace_ManagedDataType x) (TaskWorkspace_VolumeRequest x) (TaskWorkspace_Volume x) v.
Definition over_TaskWorkspace_BOMRef (f : string -> string) (x : TaskWorkspace) : TaskWorkspace := set_TaskWorkspace_BOMRef (f (TaskWorkspace_BOMRef x)) x.
Definition over_TaskWorkspace_UID (f : string -> string) (x : TaskWorkspace) : TaskWorkspace := set_TaskWorkspace_UID (f (TaskWorkspace_UID x)) x.
Definition over_TaskWorkspace_Name (f : string -> string) (x : TaskWorkspace) : TaskWorkspace := set_TaskWorkspace_Name (f (TaskWorkspace_Name x)) x.
Definition over_TaskWorkspace_Aliases (f : ptr (slice (string)) -> ptr (slice (string))) (x : TaskWorkspace) : TaskWorkspace := set_TaskWorkspace_Aliases (f (TaskWorkspace_Aliases x)) x.
Definition over_TaskWorkspace_Description (f : string -> string) (x : TaskWorkspace) : TaskWorkspace := set_TaskWorkspace_Description (f (TaskWorkspace_Description x)) x.
Definition over_TaskWorkspace_ResourceReferences (f : ptr (slice (ResourceReferenceChoice)) -> ptr (slice (ResourceReferenceChoice))) (x : TaskWorkspace) : TaskWorkspace := set_TaskWorkspace_ResourceReferences (f (TaskWorkspace_ResourceReferences x)) x.
Definition over_TaskWorkspace_AccessMode (f : TaskWorkspaceAccessMode -> TaskWorkspaceAccessMode) (x : TaskWorkspace) : TaskWorkspace := set_TaskWorkspace_AccessMode (f (TaskWorkspace_AccessMode x)) x.
Definition over_TaskWorkspace_MountPath (f : string -> string) (x : TaskWorkspace) : TaskWorkspace := set_TaskWorkspace_MountPath (f (TaskWorkspace_MountPath x)) x.
Definition over_TaskWorkspace_ManagedDataType (f : string -> string) (x : TaskWorkspace) : TaskWorkspace := set_TaskWorkspace_ManagedDataType (f (TaskWorkspace_ManagedDataType x)) x.
Definition over_TaskWorkspace_VolumeRequest (f : string -> string) (x : TaskWorkspace) : TaskWorkspace := set_TaskWorkspace_VolumeRequest (f (TaskWorkspace_VolumeRequest x)) x.
Definition over_TaskWorkspace_Volume (f : ptr (Volume) -> ptr (Volume)) (x : TaskWorkspace) : TaskWorkspace := set_TaskWorkspace_Volume (f (TaskWorkspace_Volume x)) x.
Definition over_TaskWorkspace_Properties (f : ptr (slice (Property)) -> ptr (slice (Property))) (x : TaskWorkspace) : TaskWorkspace := set_TaskWorkspace_Properties (f (TaskWorkspace_Properties x)) x.
Definition zero_TaskWorkspace : TaskWorkspace := mkTaskWorkspace ("") ("") ("") (None) ("") (None) ("") ("") ("") ("") (None) (None).

(** /repo/cyclonedx.go:1459-1475 *)
Record Task := mkTask {
  Task_BOMRef : string;
  Task_UID : string;
  Task_Name : string;
  Task_Description : string;
  Task_Properties : ptr (slice (Property));
  Task_ResourceReferences : ptr (slice (ResourceReferenceChoice));
  Task_TaskTypes : ptr (slice (TaskType));
  Task_Trigger : ptr (TaskTrigger);
  Task_Steps : ptr (slice (TaskStep));
  Task_Inputs : ptr (slice (TaskInput));
  Task_Outputs : ptr (slice (TaskOutput));
  Task_TimeStart : string;
  Task_TimeEnd : string;
  Task_Workspaces : ptr (slice (TaskWorkspace));
  Task_RuntimeTopology : ptr (slice (Dependency))
}.
Definition set_Task_BOMRef (v : string) (x : Task) : Task :=
  mkTask v (Task_UID x) (Task_Name x) (Task_Description x) (Task_Properties x) (Task_ResourceReferences x) (Task_TaskTypes x) (Task_Trigger x) (Task_Steps x) (Task_Inputs x) (Task_Outputs x) (Task_TimeStart x) (Task_TimeEnd x) (Task_Workspaces x) (Task_RuntimeTopology x).
Definition set_Task_UID (v : string) (x : Task) : Task :=
  mkTask (Task_BOMRef x) v (Task_Name x) (Task_Description x) (Task_Properties x) (Task_ResourceReferences x) (Task_TaskTypes x) (Task_Trigger x) (Task_Steps x) (Task_Inputs x) (Task_Outputs x) (Task_TimeStart x) (Task_TimeEnd x) (Task_Workspaces x) (Task_RuntimeTopology x).
Definition set_Task_Name (v : string) (x : Task) : Task :=
  mkTask (Task_BOMRef x) (Task_UID x) v (Task_Description x) (Task_Properties x) (Task_ResourceReferences x) (Task_TaskTypes x) (Task_Trigger x) (Task_Steps x) (Task_Inputs x) (Task_Outputs x) (Task_TimeStart x) (Task_TimeEnd x) (Task_Workspaces x) (Task_RuntimeTopology x).
Definition set_Task_Description (v : string) (x : Task) : Task :=
  mkTask (Task_BOMRef x) (Task_UID x) (Task_Name x) v (Task_Properties x) (Task_ResourceReferences x) (Task_TaskTypes x) (Task_Trigger x) (Task_Steps x) (Task_Inputs x) (Task_Outputs x) (Task_TimeStart x) (Task_TimeEnd x) (Task_Workspaces x) (Task_RuntimeTopology x).
Definition set_Task_Properties (v : ptr (slice (Property))) (x : Task) : Task :=
  mkTask (Task_BOMRef x) (Task_UID x) (Task_Name x) (Task_Description x) v (Task_ResourceReferences x) (Task_TaskTypes x) (Task_Trigger x) (Task_Steps x) (Task_Inputs x) (Task_Outputs x) (Task_TimeStart x) (Task_TimeEnd x) (Task_Workspaces x) (Task_RuntimeTopology x).
Definition set_Task_ResourceReferences (v : ptr (slice (ResourceReferenceChoice))) (x : Task) : Task :=
  mkTask (Task_BOMRef x) (Task_UID x) (Task_Name x) (Task_Description x) (Task_Properties x) v (Task_TaskTypes x) (Task_Trigger x) (Task_Steps x) (Task_Inputs x) (Task_Outputs x) (Task_TimeStart x) (Task_TimeEnd x) (Task_Workspaces x) (Task_RuntimeTopology x).
Definition set_Task_TaskTypes (v : ptr (slice (TaskType))) (x : Task) : Task :=
  mkTask (Task_BOMRef x) (Task_UID x) (Task_Name x) (Task_Description x) (Task_Properties x) (Task_ResourceReferences x) v (Task_Trigger x) (Task_Steps x) (Task_Inputs x) (Task_Outputs x) (Task_TimeStart x) (Task_TimeEnd x) (Task_Workspaces x) (Task_RuntimeTopology x).
Definition set_Task_Trigger (v : ptr (TaskTrigger)) (x : Task) : Task :=
  mkTask (Task_BOMRef x) (Task_UID x) (Task_Name x) (Task_Description x) (Task_Properties x) (Task_ResourceReferences x) (Task_TaskTypes x) v (Task_Steps x) (Task_Inputs x) (Task_Outputs x) (Task_TimeStart x) (Task_TimeEnd x) (Task_Workspaces x) (Task_RuntimeTopology x).
Definition set_Task_Steps (v : ptr (slice (TaskStep))) (x : Task) : Task :=
  mkTask (Task_BOMRef x) (Task_UID x) (Task_Name x) (Task_Description x) (Task_Properties x) (Task_ResourceReferences x) (Task_TaskTypes x) (Task_Trigger x) v (Task_Inputs x) (Task_Outputs x) (Task_TimeStart x) (Task_TimeEnd x) (Task_Workspaces x) (Task_RuntimeTopology x).
Definition set_Task_Inputs (v : ptr (slice (TaskInput))) (x : Task) : Task :=
  mkTask (Task_BOMRef x) (Task_UID x) (Task_Name x) (Task_Description x) (Task_Properties x) (Task_ResourceReferences x) (Task_TaskTypes x) (Task_Trigger x) (Task_Steps x) v (Task_Outputs x) (Task_TimeStart x) (Task_TimeEnd x) (Task_Workspaces x) (Task_RuntimeTopology x).
Definition set_Task_Outputs (v : ptr (slice (TaskOutput))) (x : Task) : Task :=
  mkTask (Task_BOMRef x) (Task_UID x) (Task_Name x) (Task_Description x) (Task_Properties x) (Task_ResourceReferences x) (Task_TaskTypes x) (Task_Trigger x) (Task_Steps x) (Task_Inputs x) v (Task_TimeStart x) (Task_TimeEnd x) (Task_Workspaces x) (Task_RuntimeTopology x).
Definition set_Task_TimeStart (v : string) (x : Task) : Task :=
  mkTask (Task_BOMRef x) (Task_UID x) (Task_Name x) (Task_Description x) (Task_Properties x) (Task_ResourceReferences x) (Task_TaskTypes x) (Task_Trigger x) (Task_Steps x) (Task_Inputs x) (Task_Outputs x) v (Task_TimeEnd x) (Task_Workspaces x) (Task_RuntimeTopology x).
Definition set_Task_TimeEnd (v : string) (x : Task) : Task :=
  mkTask (Task_BOMRef x) (Task_UID x) (Task_Name x) (Task_Description x) (Task_Properties x) (Task_ResourceReferences x) (Task_TaskTypes x) (Task_Trigger x) (Task_Steps x) (Task_Inputs x) (Task_Outputs x) (Task_TimeStart x) v (Task_Workspaces x) (Task_RuntimeTopology x).
Definition set_Task_Workspaces (v : ptr (slice (TaskWorkspace))) (x : Task) : Task :=
  mkTask (Task_BOMRef x) (Task_UID x) (Task_Name x) (Task_Description x) (Task_Properties x) (Task_ResourceReferences x) (Task_TaskTypes x) (Task_Trigger x) (Task_Steps x) (Task_Inputs x) (Task_Outputs x) (Task_TimeStart x) (Task_TimeEnd x) v (Task_RuntimeTopology x).
Definition set_Task_RuntimeTopology (v : ptr (slice (Dependency))) (x : Task) : Task :=
  mkTask (Task_BOMRef x) (Task_UID x) (Task_Name x) (Task_Description x) (Task_Properties x) (Task_ResourceReferences x) (Task_TaskTypes x) (Task_Trigger x) (Task_Steps x) (Task_Inputs x) (Task_Outputs x) (Task_TimeStart x) (Task_TimeEnd x) (Task_Workspaces x) v.
Definition over_Task_BOMRef (f : string -> string) (x : Task) : Task := set_Task_BOMRef (f (Task_BOMRef x)) x.
Definition over_Task_UID (f : string -> string) (x : Task) : Task := set_Task_UID (f (Task_UID x)) x.
Definition over_Task_Name (f : string -> string) (x : Task) : Task := set_Task_Name (f (Task_Name x)) x.
Definition over_Task_Description (f : string -> string) (x : Task) : Task := set_Task_Description (f (Task_Description x)) x.
Definition over_Task_Properties (f : ptr (slice (Property)) -> ptr (slice (Property))) (x : Task) : Task := set_Task_Properties (f (Task_Properties x)) x.
Definition over_Task_ResourceReferences (f : ptr (slice (ResourceReferenceChoice)) -> ptr (slice (ResourceReferenceChoice))) (x : Task) : Task := set_Task_ResourceReferences (f (Task_ResourceReferences x)) x.
Definition over_Task_TaskTypes (f : ptr (slice (TaskType)) -> ptr (slice (TaskType))) (x : Task) : Task := set_Task_TaskTypes (f (Task_TaskTypes x)) x.
Definition over_Task_Trigger (f : ptr (TaskTrigger) -> ptr (TaskTrigger)) (x : Task) : Task := set_Task_Trigger (f (Task_Trigger x)) x.
Definition over_Task_Steps (f : ptr (slice (TaskStep)) -> ptr (slice (TaskStep))) (x : Task) : Task := set_Task_Steps (f (Task_Steps x)) x.
Definition over_Task_Inputs (f : ptr (slice (TaskInput)) -> ptr (slice (TaskInput))) (x : Task) : Task := set_Task_Inputs (f (Task_Inputs x)) x.
Definition over_Task_Outputs (f : ptr (slice (TaskOutput)) -> ptr (slice (TaskOutput))) (x : Task) : Task := set_Task_Outputs (f (Task_Outputs x)) x.
Definition over_Task_TimeStart (f : string -> string) (x : Task) : Task := set_Task_TimeStart (f (Task_TimeStart x)) x.
Definition over_Task_TimeEnd (f : string -> string) (x : Task) : Task := set_Task_TimeEnd (f (Task_TimeEnd x)) x.
Definition over_Task_Workspaces (f : ptr (slice (TaskWorkspace)) -> ptr (slice (TaskWorkspace))) (x : Task) : Task := set_Task_Workspaces (f (Task_Workspaces x)) x.
Definition over_Task_RuntimeTopology (f : ptr (slice (Dependency)) -> ptr (slice (Dependency))) (x : Task) : Task := set_Task_RuntimeTopology (f (Task_RuntimeTopology x)) x.
Definition zero_Task : Task := mkTask ("") ("") ("") ("") (None) (None) (None) (None) (None) (None) (None) ("") ("") (None) (None).

(** /repo/cyclonedx.go:1689-1707 *)
Record Workflow := mkWorkflow {
  Workflow_BOMRef : string;
  Workflow_UID : string;
  Workflow_Name : string;
  Workflow_Description : string;
  Workflow_ResourceReferences : ptr (slice (ResourceReferenceChoice));
  Workflow_Tasks : ptr (slice (Task));
  Workflow_TaskDependencies : ptr (slice (Dependency));
  Workflow_TaskTypes : ptr (slice (TaskType));
  Workflow_Trigger : ptr (TaskTrigger);
  Workflow_Steps : ptr (slice (TaskStep));
  Workflow_Inputs : ptr (slice (TaskInput));
  Workflow_Outputs : ptr (slice (TaskOutput));
  Workflow_TimeStart : string;
  Workflow_TimeEnd : string;
  Workflow_Workspaces : ptr (slice (TaskWorkspace));
  Workflow_RuntimeTopology : ptr (slice (Dependency));
  Workflow_Properties : ptr (slice (Property))
}.
Definition set_Workflow_BOMRef (v : string) (x : Workflow) : Workflow :=
  mkWorkflow v (Workflow_UID x) (Workflow_Name x) (Workflow_Description x) (Workflow_ResourceReferences x) (Workflow_Tasks x) (Workflow_TaskDependencies x) (Workflow_TaskTypes x) (Workflow_Trigger x) (Workflow_Steps x) (Workflow_Inputs x) (Workflow_Outputs x) (Workflow_TimeStart x) (Workflow_TimeEnd x) (Workflow_Workspaces x) (Workflow_RuntimeTopology x) (Workflow_Properties x).
Definition set_Workflow_UID (v : string) (x : Workflow) : Workflow :=
  mkWorkflow (Workflow_BOMRef x) v (Workflow_Name x) (Workflow_Description x) (Workflow_ResourceReferences x) (Workflow_Tasks x) (Workflow_TaskDependencies x) (Workflow_TaskTypes x) (Workflow_Trigger x) (Workflow_Steps x) (Workflow_Inputs x) (Workflow_Outputs x) (Workflow_TimeStart x) (Workflow_TimeEnd x) (Workflow_Workspaces x) (Workflow_RuntimeTopology x) (Workflow_Properties x).
Definition set_Workflow_Name (v : string) (x : Workflow) : Workflow :=
  mkWorkflow (Workflow_BOMRef x) (Workflow_UID x) v (Workflow_Description x) (Workflow_ResourceReferences x) (Workflow_Tasks x) (Workflow_TaskDependencies x) (Workflow_TaskTypes x) (Workflow_Trigger x) (Workflow_Steps x) (Workflow_Inputs x) (Workflow_Outputs x) (Workflow_TimeStart x) (Workflow_TimeEnd x) (Workflow_Workspaces x) (Workflow_RuntimeTopology x) (Workflow_Properties x).
Definition set_Workflow_Description (v : string) (x : Workflow) : Workflow :=
  mkWorkflow (Workflow_BOMRef x) (Workflow_UID x) (Workflow_Name x) v (Workflow_ResourceReferences x) (Workflow_Tasks x) (Workflow_TaskDependencies x) (Workflow_TaskTypes x) (Workflow_Trigger x) (Workflow_Steps x) (Workflow_Inputs x) (Workflow_Outputs x) (Workflow_TimeStart x) (Workflow_TimeEnd x) (Workflow_Workspaces x) (Workflow_RuntimeTopology x) (Workflow_Properties x).
Definition set_Workflow_ResourceReferences (v : ptr (slice (ResourceReferenceChoice))) (x : Workflow) : Workflow :=
  mkWorkflow (Workflow_BOMRef x) (Workflow_UID x) (Workflow_Name x) (Workflow_Description x) v (Workflow_Tasks x) (Workflow_TaskDependencies x) (Workflow_TaskTypes x) (Workflow_Trigger x) (Workflow_Steps x) (Workflow_Inputs x) (Workflow_Outputs x) (Workflow_TimeStart x) (Workflow_TimeEnd x) (Workflow_Workspaces x) (Workflow_RuntimeTopology x) (Workflow_Properties x).
Definition set_Workflow_Tasks (v : ptr (slice (Task))) (x : Workflow) : Workflow :=
  mkWorkflow (Workflow_BOMRef x) (Workflow_UID x) (Workflow_Name x) (Workflow_Description x) (Workflow_ResourceReferences x) v (Workflow_TaskDependencies x) (Workflow_TaskTypes x) (Workflow_Trigger x) (Workflow_Steps x) (Workflow_Inputs x) (Workflow_Outputs x) (Workflow_TimeStart x) (Workflow_TimeEnd x) (Workflow_Workspaces x) (Workflow_RuntimeTopology x) (Workflow_Properties x).
Definition set_Workflow_TaskDependencies (v : ptr (slice (Dependency))) (x : Workflow) : Workflow :=
  mkWorkflow (Workflow_BOMRef x) (Workflow_UID x) (Workflow_Name x) (Workflow_Description x) (Workflow_ResourceReferences x) (Workflow_Tasks x) v (Workflow_TaskTypes x) (Workflow_Trigger x) (Workflow_Steps x) (Workflow_Inputs x) (Workflow_Outputs x) (Workflow_TimeStart x) (Workflow_TimeEnd x) (Workflow_Workspaces x) (Workflow_RuntimeTopology x) (Workflow_Properties x).
Definition set_Workflow_TaskTypes (v : ptr (slice (TaskType))) (x : Workflow) : Workflow :=
  mkWorkflow (Workflow_BOMRef x) (Workflow_UID x) (Workflow_Name x) (Workflow_Description x) (Workflow_ResourceReferences x) (Workflow_Tasks x) (Workflow_TaskDependencies x) v (Workflow_Trigger x) (Workflow_Steps x) (Workflow_Inputs x) (Workflow_Outputs x) (Workflow_TimeStart x) (Workflow_TimeEnd x) (Workflow_Workspaces x) (Workflow_RuntimeTopology x) (Workflow_Properties x).
Definition set_Workflow_Trigger (v : ptr (TaskTrigger)) (x : Workflow) : Workflow :=
  mkWorkflow (Workflow_BOMRef x) (Workflow_UID x) (Workflow_Name x) (Workflow_Description x) (Workflow_ResourceReferences x) (Workflow_Tasks x) (Workflow_TaskDependencies x) (Workflow_TaskTypes x) v (Workflow_Steps x) (Workflow_Inputs x) (Workflow_Outputs x) (Workflow_TimeStart x) (Workflow_TimeEnd x) (Workflow_Workspaces x) (Workflow_RuntimeTopology x) (Workflow_Properties x).
Definition set_Workflow_Steps (v : ptr (slice (TaskStep))) (x : Workflow) : Workflow :=
  mkWorkflow (Workflow_BOMRef x) (Workflow_UID x) (Workflow_Name x) (Workflow_Description x) (Workflow_ResourceReferences x) (Workflow_Tasks x) (Workflow_TaskDependencies x) (Workflow_TaskTypes x) (Workflow_Trigger x) v (Workflow_Inputs x) (Workflow_Outputs x) (Workflow_TimeStart x) (Workflow_TimeEnd x) (Workflow_Workspaces x) (Workflow_RuntimeTopology x) (Workflow_Properties x).
Definition set_Workflow_Inputs (v : ptr (slice (TaskInput))) (x : Workflow) : Workflow :=
  mkWorkflow (Workflow_BOMRef x) (Workflow_UID x) (Workflow_Name x) (Workflow_Description x) (Workflow_ResourceReferences x) (Workflow_Tasks x) (Workflow_TaskDependencies x) (Workflow_TaskTypes x) (Workflow_Trigger x) (Workflow_Steps x) v (Workflow_Outputs x) (Workflow_TimeStart x) (Workflow_TimeEnd x) (Workflow_Workspaces x) (Workflow_RuntimeTopology x) (Workflow_Properties x).
Definition set_Workflow_Outputs (v : ptr (slice (TaskOutput))) (x : Workflow) : Workflow :=
  mkWorkflow (Workflow_BOMRef x) (Workflow_UID x) (Workflow_Name x) (Workflow_Description x) (Workflow_ResourceReferences x) (Workflow_Tasks x) (Workflow_TaskDependencies x) (Workflow_TaskTypes x) (Workflow_Trigger x) (Workflow_Steps x) (Workflow_Inputs x) v (Workflow_TimeStart x) (Workflow_TimeEnd x) (Workflow_Workspaces x) (Workflow_RuntimeTopology x) (Workflow_Properties x).
Definition set_Workflow_TimeStart (v : string) (x : Workflow) : Workflow :=
  mkWorkflow (Workflow_BOMRef x) (Workflow_UID x) (Workflow_Name x) (Workflow_Description x) (Workflow_ResourceReferences x) (Workflow_Tasks x) (Workflow_TaskDependencies x) (Workflow_TaskTypes x) (Workflow_Trigger x) (Workflow_Steps x) (Workflow_Inputs x) (Workflow_Outputs x) v (Workflow_TimeEnd x) (Workflow_Workspaces x) (Workflow_RuntimeTopology x) (Workflow_Properties x).
Definition set_Workflow_TimeEnd (v : string) (x : Workflow) : Workflow :=
  mkWorkflow (Workflow_BOMRef x) (Workflow_UID x) (Workflow_Name x) (Workflow_Description x) (Workflow_ResourceReferences x) (Workflow_Tasks x) (Workflow_TaskDependencies x) (Workflow_TaskTypes x) (Workflow_Trigger x) (Workflow_Steps x) (Workflow_Inputs x) (Workflow_Outputs x) (Workflow_TimeStart x) v (Workflow_Workspaces x) (Workflow_RuntimeTopology x) (Workflow_Properties x).
Definition set_Workflow_Workspaces (v : ptr (slice (TaskWorkspace))) (x : Workflow) : Workflow :=
  mkWorkflow (Workflow_BOMRef x) (Workflow_UID x) (Workflow_Name x) (Workflow_Description x) (Workflow_ResourceReferences x) (Workflow_Tasks x) (Workflow_TaskDependencies x) (Workflow_TaskTypes x) (Workflow_Trigger x) (Workflow_Steps x) (Workflow_Inputs x) (Workflow_Outputs x) (Workflow_TimeStart x) (Workflow_TimeEnd x) v (Workflow_RuntimeTopology x) (Workflow_Properties x).
Definition set_Workflow_RuntimeTopology (v : ptr (slice (Dependency))) (x : Workflow) : Workflow :=
  mkWorkflow (Workflow_BOMRef x) (Workflow_UID x) (Workflow_Name x) (Workflow_Description x) (Workflow_ResourceReferences x) (Workflow_Tasks x) (Workflow_TaskDependencies x) (Workflow_TaskTypes x) (Workflow_Trigger x) (Workflow_Steps x) (Workflow_Inputs x) (Workflow_Outputs x) (Workflow_TimeStart x) (Workflow_TimeEnd x) (Workflow_Workspaces x) v (Workflow_Properties x).
Definition set_Workflow_Properties (v : ptr (slice (Property))) (x : Workflow) : Workflow :=
  mkWorkflow (Workflow_BOMRef x) (Workflow_UID x) (Workflow_Name x) (Workflow_Description x) (Workflow_ResourceReferences x) (Workflow_Tasks x) (Workflow_TaskDependencies x) (Workflow_TaskTypes x) (Workflow_Trigger x) (Workflow_Steps x) (Workflow_Inputs x) (Workflow_Outputs x) (Workflow_TimeStart x) (Workflow_TimeEnd x) (Workflow_Workspaces x) (Workflow_RuntimeTopology x) v.
Definition over_Workflow_BOMRef (f : string -> string) (x : Workflow) : Workflow := set_Workflow_BOMRef (f (Workflow_BOMRef x)) x.
Definition over_Workflow_UID (f : string -> string) (x : Workflow) : Workflow := set_Workflow_UID (f (Workflow_UID x)) x.
Definition over_Workflow_Name (f : string -> string) (x : Workflow) : Workflow := set_Workflow_Name (f (Workflow_Name x)) x.
Definition over_Workflow_Description (f : string -> string) (x : Workflow) : Workflow := set_Workflow_Description (f (Workflow_Description x)) x.
Definition over_Workflow_ResourceReferences (f : ptr (slice (ResourceReferenceChoice)) -> ptr (slice (ResourceReferenceChoice))) (x : Workflow) : Workflow := set_Workflow_ResourceReferences (f (Workflow_ResourceReferences x)) x.
Definition over_Workflow_Tasks (f : ptr (slice (Task)) -> ptr (slice (Task))) (x : Workflow) : Workflow := set_Workflow_Tasks (f (Workflow_Tasks x)) x.
Definition over_Workflow_TaskDependencies (f : ptr (slice (Dependency)) -> ptr (slice (Dependency))) (x : Workflow) : Workflow := set_Workflow_TaskDependencies (f (Workflow_TaskDependencies x)) x.
Definition over_Workflow_TaskTypes (f : ptr (slice (TaskType)) -> ptr (slice (TaskType))) (x : Workflow) : Workflow := set_Workflow_TaskTypes (f (Workflow_TaskTypes x)) x.
Definition over_Workflow_Trigger (f : ptr (TaskTrigger) -> ptr (TaskTrigger)) (x : Workflow) : Workflow := set_Workflow_Trigger (f (Workflow_Trigger x)) x.
Definition over_Workflow_Steps (f : ptr (slice (TaskStep)) -> ptr (slice (TaskStep))) (x : Workflow) : Workflow := set_Workflow_Steps (f (Workflow_Steps x)) x.
Definition over_Workflow_Inputs (f : ptr (slice (TaskInput)) -> ptr (slice (TaskInput))) (x : Workflow) : Workflow := set_Workflow_Inputs (f (Workflow_Inputs x)) x.
Definition over_Workflow_Outputs (f : ptr (slice (TaskOutput)) -> ptr (slice (TaskOutput))) (x : Workflow) : Workflow := set_Workflow_Outputs (f (Workflow_Outputs x)) x.
Definition over_Workflow_TimeStart (f : string -> string) (x : Workflow) : Workflow := set_Workflow_TimeStart (f (Workflow_TimeStart x)) x.
Definition over_Workflow_TimeEnd (f : string -> string) (x : Workflow) : Workflow := set_Workflow_TimeEnd (f (Workflow_TimeEnd x)) x.
Definition over_Workflow_Workspaces (f : ptr (slice (TaskWorkspace)) -> ptr (slice (TaskWorkspace))) (x : Workflow) : Workflow := set_Workflow_Workspaces (f (Workflow_Workspaces x)) x.
Definition over_Workflow_RuntimeTopology (f : ptr (slice (Dependency)) -> ptr (slice (Dependency))) (x : Workflow) : Workflow := set_Workflow_RuntimeTopology (f (Workflow_RuntimeTopology x)) x.
Definition over_Workflow_Properties (f : ptr (slice (Property)) -> ptr (slice (Property))) (x : Workflow) : Workflow := set_Workflow_Properties (f (Workflow_Properties x)) x.
Definition zero_Workflow : Workflow := mkWorkflow ("") ("") ("") ("") (None) (None) (None) (None) (None) (None) (None) (None) ("") ("") (None) (None) (None).

(** /repo/cyclonedx.go:800-806 *)
Record Formula := mkFormula {
  Formula_BOMRef : string;
  Formula_Components : ptr (slice (Component));
  Formula_Services : ptr (slice (Service));
  Formula_Workflows : ptr (slice (Workflow));
  Formula_Properties : ptr (slice (Property))
}.
Definition set_Formula_BOMRef (v : string) (x : Formula) : Formula :=
  mkFormula v (Formula_Components x) (Formula_Services x) (Formula_Workflows x) (Formula_Properties x).
Definition set_Formula_Components (v : ptr (slice (Component))) (x : Formula) : Formula :=
  mkFormula (Formula_BOMRef x) v (Formula_Services x) (Formula_Workflows x) (Formula_Properties x).
Definition set_Formula_Services (v : ptr (slice (Service))) (x : Formula) : Formula :=
  mkFormula (Formula_BOMRef x) (Formula_Components x) v (Formula_Workflows x) (Formula_Properties x).
Definition set_Formula_Workflows (v : ptr (slice (Workflow))) (x : Formula) : Formula :=
  mkFormula (Formula_BOMRef x) (Formula_Components x) (Formula_Services x) v (Formula_Properties x).
Definition set_Formula_Properties (v : ptr (slice (Property))) (x : Formula) : Formula :=
  mkFormula (Formula_BOMRef x) (Formula_Components x) (Formula_Services x) (Formula_Workflows x) v.
Definition over_Formula_BOMRef (f : string -> string) (x : Formula) : Formula := set_Formula_BOMRef (f (Formula_BOMRef x)) x.
Definition over_Formula_Components (f : ptr (slice (Component)) -> ptr (slice (Component))) (x : Formula) : Formula := set_Formula_Components (f (Formula_Components x)) x.
Definition over_Formula_Services (f : ptr (slice (Service)) -> ptr (slice (Service))) (x : Formula) : Formula := set_Formula_Services (f (Formula_Services x)) x.
Definition over_Formula_Workflows (f : ptr (slice (Workflow)) -> ptr (slice (Workflow))) (x : Formula) : Formula := set_Formula_Workflows (f (Formula_Workflows x)) x.
Definition over_Formula_Properties (f : ptr (slice (Property)) -> ptr (slice (Property))) (x : Formula) : Formula := set_Formula_Properties (f (Formula_Properties x)) x.
Definition zero_Formula : Formula := mkFormula ("") (None) (None) (None) (None).

(** /repo/cyclonedx.go:193-203 *)
Record Claim := mkClaim {
  Claim_BOMRef : string;
  Claim_Target : BOMReference;
  Claim_Predicate : string;
  Claim_MitigationStrategies : ptr (slice (BOMReference));
  Claim_Reasoning : string;
  Claim_Evidence : ptr (slice (BOMReference));
  Claim_CounterEvidence : ptr (slice (BOMReference));
  Claim_ExternalReferences : ptr (slice (ExternalReference));
  Claim_Signature : ptr (JSFSignature)
}.
Definition set_Claim_BOMRef (v : string) (x : Claim) : Claim :=
  mkClaim v (Claim_Target x) (Claim_Predicate x) (Claim_MitigationStrategies x) (Claim_Reasoning x) (Claim_Evidence x) (Claim_CounterEvidence x) (Claim_ExternalReferences x) (Claim_Signature x).
Definition set_Claim_Target (v : BOMReference) (x : Claim) : Claim :=
  mkClaim (Claim_BOMRef x) v (Claim_Predicate x) (Claim_MitigationStrategies x) (Claim_Reasoning x) (Claim_Evidence x) (Claim_CounterEvidence x) (Claim_ExternalReferences x) (Claim_Signature x).
Definition set_Claim_Predicate (v : string) (x : Claim) : Claim :=
  mkClaim (Claim_BOMRef x) (Claim_Target x) v (Claim_MitigationStrategies x) (Claim_Reasoning x) (Claim_Evidence x) (Claim_CounterEvidence x) (Claim_ExternalReferences x) (Claim_Signature x).
Definition set_Claim_MitigationStrategies (v : ptr (slice (BOMReference))) (x : Claim) : Claim :=
  mkClaim (Claim_BOMRef x) (Claim_Target x) (Claim_Predicate x) v (Claim_Reasoning x) (Claim_Evidence x) (Claim_CounterEvidence x) (Claim_ExternalReferences x) (Claim_Signature x).
Definition set_Claim_Reasoning (v : string) (x : Claim) : Claim :=
  mkClaim (Claim_BOMRef x) (Claim_Target x) (Claim_Predicate x) (Claim_MitigationStrategies x) v (Claim_Evidence x) (Claim_CounterEvidence x) (Claim_ExternalReferences x) (Claim_Signature x).
Definition set_Claim_Evidence (v : ptr (slice (BOMReference))) (x : Claim) : Claim :=
  mkClaim (Claim_BOMRef x) (Claim_Target x) (Claim_Predicate x) (Claim_MitigationStrategies x) (Claim_Reasoning x) v (Claim_CounterEvidence x) (Claim_ExternalReferences x) (Claim_Signature x).
Definition set_Claim_CounterEvidence (v : ptr (slice (BOMReference))) (x : Claim) : Claim :=
  mkClaim (Claim_BOMRef x) (Claim_Target x) (Claim_Predicate x) (Claim_MitigationStrategies x) (Claim_Reasoning x) (Claim_Evidence x) v (Claim_ExternalReferences x) (Claim_Signature x).
Definition set_Claim_ExternalReferences (v : ptr (slice (ExternalReference))) (x : Claim) : Claim :=
  mkClaim (Claim_BOMRef x) (Claim_Target x) (Claim_Predicate x) (Claim_MitigationStrategies x) (Claim_Reasoning x) (Claim_Evidence x) (Claim_CounterEvidence x) v (Claim_Signature x).
Definition set_Claim_Signature (v : ptr (JSFSignature)) (x : Claim) : Claim :=
  mkClaim (Claim_BOMRef x) (Claim_Target x) (Claim_Predicate x) (Claim_MitigationStrategies x) (Claim_Reasoning x) (Claim_Evidence x) (Claim_CounterEvidence x) (Claim_ExternalReferences x) v.
Definition over_Claim_BOMRef (f : string -> string) (x : Claim) : Claim := set_Claim_BOMRef (f (Claim_BOMRef x)) x.
Definition over_Claim_Target (f : BOMReference -> BOMReference) (x : Claim) : Claim := set_Claim_Target (f (Claim_Target x)) x.
Definition over_Claim_Predicate (f : string -> string) (x : Claim) : Claim := set_Claim_Predicate (f (Claim_Predicate x)) x.
Definition over_Claim_MitigationStrategies (f : ptr (slice (BOMReference)) -> ptr (slice (BOMReference))) (x : Claim) : Claim := set_Claim_MitigationStrategies (f (Claim_MitigationStrategies x)) x.
Definition over_Claim_Reasoning (f : string -> string) (x : Claim) : Claim := set_Claim_Reasoning (f (Claim_Reasoning x)) x.
Definition over_Claim_Evidence (f : ptr (slice (BOMReference)) -> ptr (slice (BOMReference))) (x : Claim) : Claim := set_Claim_Evidence (f (Claim_Evidence x)) x.
Definition over_Claim_CounterEvidence (f : ptr (slice (BOMReference)) -> ptr (slice (BOMReference))) (x : Claim) : Claim := set_Claim_CounterEvidence (f (Claim_CounterEvidence x)) x.
Definition over_Claim_ExternalReferences (f : ptr (slice (ExternalReference)) -> ptr (slice (ExternalReference))) (x : Claim) : Claim := set_Claim_ExternalReferences (f (Claim_ExternalReferences x)) x.
Definition over_Claim_Signature (f : ptr (JSFSignature) -> ptr (JSFSignature)) (x : Claim) : Claim := set_Claim_Signature (f (Claim_Signature x)) x.
Definition zero_Claim : Claim := mkClaim ("") ("") ("") (None) ("") (None) (None) (None) (None).

(** /repo/cyclonedx.go:619-622 *)
Record EvidenceDataContents := mkEvidenceDataContents {
  EvidenceDataContents_Attachment : ptr (AttachedText);
  EvidenceDataContents_URL : string
}.
Definition set_EvidenceDataContents_Attachment (v : ptr (AttachedText)) (x : EvidenceDataContents) : EvidenceDataContents :=
  mkEvidenceDataContents v (EvidenceDataContents_URL x).
Definition set_EvidenceDataContents_URL (v : string) (x : EvidenceDataContents) : EvidenceDataContents :=
  mkEvidenceDataContents (EvidenceDataContents_Attachment x) v.
Definition over_EvidenceDataContents_Attachment (f : ptr (AttachedText) -> ptr (AttachedText)) (x : EvidenceDataContents) : EvidenceDataContents := set_EvidenceDataContents_Attachment (f (EvidenceDataContents_Attachment x)) x.
Definition over_EvidenceDataContents_URL (f : string -> string) (x : EvidenceDataContents) : EvidenceDataContents := set_EvidenceDataContents_URL (f (EvidenceDataContents_URL x)) x.
Definition zero_EvidenceDataContents : EvidenceDataContents := mkEvidenceDataContents (None) ("").

(** /repo/cyclonedx.go:611-617 *)
Record EvidenceData := mkEvidenceData {
  EvidenceData_Name : string;
  EvidenceData_Contents : ptr (EvidenceDataContents);
  EvidenceData_Classification : ptr (DataClassification);
  EvidenceData_SensitiveData : ptr (slice (string));
  EvidenceData_Governance : ptr (DataGovernance)
}.
Definition set_EvidenceData_Name (v : string) (x : EvidenceData) : EvidenceData :=
  mkEvidenceData v (EvidenceData_Contents x) (EvidenceData_Classification x) (EvidenceData_SensitiveData x) (EvidenceData_Governance x).
Definition set_EvidenceData_Contents (v : ptr (EvidenceDataContents)) (x : EvidenceData) : EvidenceData :=
  mkEvidenceData (EvidenceData_Name x) v (EvidenceData_Classification x) (EvidenceData_SensitiveData x) (EvidenceData_Governance x).
Definition set_EvidenceData_Classification (v : ptr (DataClassification)) (x : EvidenceData) : EvidenceData :=
  mkEvidenceData (EvidenceData_Name x) (EvidenceData_Contents x) v (EvidenceData_SensitiveData x) (EvidenceData_Governance x).
Definition set_EvidenceData_SensitiveData (v : ptr (slice (string))) (x : EvidenceData) : EvidenceData :=
  mkEvidenceData (EvidenceData_Name x) (EvidenceData_Contents x) (EvidenceData_Classification x) v (EvidenceData_Governance x).
Definition set_EvidenceData_Governance (v : ptr (DataGovernance)) (x : EvidenceData) : EvidenceData :=
  mkEvidenceData (EvidenceData_Name x) (EvidenceData_Contents x) (EvidenceData_Classification x) (EvidenceData_SensitiveData x) v.
Definition over_EvidenceData_Name (f : string -> string) (x : EvidenceData) : EvidenceData := set_EvidenceData_Name (f (EvidenceData_Name x)) x.
Definition over_EvidenceData_Contents (f : ptr (EvidenceDataContents) -> ptr (EvidenceDataContents)) (x : EvidenceData) : EvidenceData := set_EvidenceData_Contents (f (EvidenceData_Contents x)) x.
Definition over_EvidenceData_Classification (f : ptr (DataClassification) -> ptr (DataClassification)) (x : EvidenceData) : EvidenceData := set_EvidenceData_Classification (f (EvidenceData_Classification x)) x.
Definition over_EvidenceData_SensitiveData (f : ptr (slice (string)) -> ptr (slice (string))) (x : EvidenceData) : EvidenceData := set_EvidenceData_SensitiveData (f (EvidenceData_SensitiveData x)) x.
Definition over_EvidenceData_Governance (f : ptr (DataGovernance) -> ptr (DataGovernance)) (x : EvidenceData) : EvidenceData := set_EvidenceData_Governance (f (EvidenceData_Governance x)) x.
Definition zero_EvidenceData : EvidenceData := mkEvidenceData ("") (None) (None) (None) (None).

(** /repo/cyclonedx.go:586-596 *)
Record DeclarationEvidence := mkDeclarationEvidence {
  DeclarationEvidence_BOMRef : string;
  DeclarationEvidence_PropertyName : string;
  DeclarationEvidence_Description : string;
  DeclarationEvidence_Data : ptr (slice (EvidenceData));
  DeclarationEvidence_Created : string;
  DeclarationEvidence_Expires : string;
  DeclarationEvidence_Author : ptr (OrganizationalContact);
  DeclarationEvidence_Reviewer : ptr (OrganizationalContact);
  DeclarationEvidence_Signature : ptr (JSFSignature)
}.
Definition set_DeclarationEvidence_BOMRef (v : string) (x : DeclarationEvidence) : DeclarationEvidence :=
  mkDeclarationEvidence v (DeclarationEvidence_PropertyName x) (DeclarationEvidence_Description x) (DeclarationEvidence_Data x) (DeclarationEvidence_Created x) (DeclarationEvidence_Expires x) (DeclarationEvidence_Author x) (DeclarationEvidence_Reviewer x) (DeclarationEvidence_Signature x).
Definition set_DeclarationEvidence_PropertyName (v : string) (x : DeclarationEvidence) : DeclarationEvidence :=
  mkDeclarationEvidence (DeclarationEvidence_BOMRef x) v (DeclarationEvidence_Description x) (DeclarationEvidence_Data x) (DeclarationEvidence_Created x) (DeclarationEvidence_Expires x) (DeclarationEvidence_Author x) (DeclarationEvidence_Reviewer x) (DeclarationEvidence_Signature x).
Definition set_DeclarationEvidence_Description (v : string) (x : DeclarationEvidence) : DeclarationEvidence :=
  mkDeclarationEvidence (DeclarationEvidence_BOMRef x) (DeclarationEvidence_PropertyName x) v (DeclarationEvidence_Data x) (DeclarationEvidence_Created x) (DeclarationEvidence_Expires x) (DeclarationEvidence_Author x) (DeclarationEvidence_Reviewer x) (DeclarationEvidence_Signature x).
Definition set_DeclarationEvidence_Data (v : ptr (slice (EvidenceData))) (x : DeclarationEvidence) : DeclarationEvidence :=
  mkDeclarationEvidence (DeclarationEvidence_BOMRef x) (DeclarationEvidence_PropertyName x) (DeclarationEvidence_Description x) v (DeclarationEvidence_Created x) (DeclarationEvidence_Expires x) (DeclarationEvidence_Author x) (DeclarationEvidence_Reviewer x) (DeclarationEvidence_Signature x).
Definition set_DeclarationEvidence_Created (v : string) (x : DeclarationEvidence) : DeclarationEvidence :=
  mkDeclarationEvidence (DeclarationEvidence_BOMRef x) (DeclarationEvidence_PropertyName x) (DeclarationEvidence_Description x) (DeclarationEvidence_Data x) v (DeclarationEvidence_Expires x) (DeclarationEvidence_Author x) (DeclarationEvidence_Reviewer x) (DeclarationEvidence_Signature x).
Definition set_DeclarationEvidence_Expires (v : string) (x : DeclarationEvidence) : DeclarationEvidence :=
  mkDeclarationEvidence (DeclarationEvidence_BOMRef x) (DeclarationEvidence_PropertyName x) (DeclarationEvidence_Description x) (DeclarationEvidence_Data x) (DeclarationEvidence_Created x) v (DeclarationEvidence_Author x) (DeclarationEvidence_Reviewer x) (DeclarationEvidence_Signature x).
Definition set_DeclarationEvidence_Author (v : ptr (OrganizationalContact)) (x : DeclarationEvidence) : DeclarationEvidence :=
  mkDeclarationEvidence (DeclarationEvidence_BOMRef x) (DeclarationEvidence_PropertyName x) (DeclarationEvidence_Description x) (DeclarationEvidence_Data x) (DeclarationEvidence_Created x) (DeclarationEvidence_Expires x) v (DeclarationEvidence_Reviewer x) (DeclarationEvidence_Signature x).
Definition set_DeclarationEvidence_Reviewer (v : ptr (OrganizationalContact)) (x : DeclarationEvidence) : DeclarationEvidence :=
  mkDeclarationEvidence (DeclarationEvidence_BOMRef x) (DeclarationEvidence_PropertyName x) (DeclarationEvidence_Description x) (DeclarationEvidence_Data x) (DeclarationEvidence_Created x) (DeclarationEvidence_Expires x) (DeclarationEvidence_Author x) v (DeclarationEvidence_Signature x).
Definition set_DeclarationEvidence_Signature (v : ptr (JSFSignature)) (x : DeclarationEvidence) : DeclarationEvidence :=
  mkDeclarationEvidence (DeclarationEvidence_BOMRef x) (DeclarationEvidence_PropertyName x) (DeclarationEvidence_Description x) (DeclarationEvidence_Data x) (DeclarationEvidence_Created x) (DeclarationEvidence_Expires x) (DeclarationEvidence_Author x) (DeclarationEvidence_Reviewer x) v.
Definition over_DeclarationEvidence_BOMRef (f : string -> string) (x : DeclarationEvidence) : DeclarationEvidence := set_DeclarationEvidence_BOMRef (f (DeclarationEvidence_BOMRef x)) x.
Definition over_DeclarationEvidence_PropertyName (f : string -> string) (x : DeclarationEvidence) : DeclarationEvidence := set_DeclarationEvidence_PropertyName (f (DeclarationEvidence_PropertyName x)) x.
Definition over_DeclarationEvidence_Description (f : string -> string) (x : DeclarationEvidence) : DeclarationEvidence := set_DeclarationEvidence_Description (f (DeclarationEvidence_Description x)) x.
Definition over_DeclarationEvidence_Data (f : ptr (slice (EvidenceData)) -> ptr (slice (EvidenceData))) (x : DeclarationEvidence) : DeclarationEvidence := set_DeclarationEvidence_Data (f (DeclarationEvidence_Data x)) x.
Definition over_DeclarationEvidence_Created (f : string -> string) (x : DeclarationEvidence) : DeclarationEvidence := set_DeclarationEvidence_Created (f (DeclarationEvidence_Created x)) x.
Definition over_DeclarationEvidence_Expires (f : string -> string) (x : DeclarationEvidence) : DeclarationEvidence := set_DeclarationEvidence_Expires (f (DeclarationEvidence_Expires x)) x.
Definition over_DeclarationEvidence_Author (f : ptr (OrganizationalContact) -> ptr (OrganizationalContact)) (x : DeclarationEvidence) : DeclarationEvidence := set_DeclarationEvidence_Author (f (DeclarationEvidence_Author x)) x.
Definition over_DeclarationEvidence_Reviewer (f : ptr (OrganizationalContact) -> ptr (OrganizationalContact)) (x : DeclarationEvidence) : DeclarationEvidence := set_DeclarationEvidence_Reviewer (f (DeclarationEvidence_Reviewer x)) x.
Definition over_DeclarationEvidence_Signature (f : ptr (JSFSignature) -> ptr (JSFSignature)) (x : DeclarationEvidence) : DeclarationEvidence := set_DeclarationEvidence_Signature (f (DeclarationEvidence_Signature x)) x.
Definition zero_DeclarationEvidence : DeclarationEvidence := mkDeclarationEvidence ("") ("") ("") (None) ("") ("") (None) (None) (None).

(** /repo/cyclonedx.go:624-628 *)
Record Targets := mkTargets {
  Targets_Organizations : ptr (slice (OrganizationalEntity));
  Targets_Components : ptr (slice (Component));
  Targets_Services : ptr (slice (Service))
}.
Definition set_Targets_Organizations (v : ptr (slice (OrganizationalEntity))) (x : Targets) : Targets :=
  mkTargets v (Targets_Components x) (Targets_Services x).
Definition set_Targets_Components (v : ptr (slice (Component))) (x : Targets) : Targets :=
  mkTargets (Targets_Organizations x) v (Targets_Services x).
Definition set_Targets_Services (v : ptr (slice (Service))) (x : Targets) : Targets :=
  mkTargets (Targets_Organizations x) (Targets_Components x) v.
Definition over_Targets_Organizations (f : ptr (slice (OrganizationalEntity)) -> ptr (slice (OrganizationalEntity))) (x : Targets) : Targets := set_Targets_Organizations (f (Targets_Organizations x)) x.
Definition over_Targets_Components (f : ptr (slice (Component)) -> ptr (slice (Component))) (x : Targets) : Targets := set_Targets_Components (f (Targets_Components x)) x.
Definition over_Targets_Services (f : ptr (slice (Service)) -> ptr (slice (Service))) (x : Targets) : Targets := set_Targets_Services (f (Targets_Services x)) x.
Definition zero_Targets : Targets := mkTargets (None) (None) (None).

(** /repo/cyclonedx.go:636-642 *)
Record Signatory := mkSignatory {
  Signatory_Name : string;
  Signatory_Role : string;
  Signatory_Signature : ptr (JSFSignature);
  Signatory_Organization : ptr (OrganizationalEntity);
  Signatory_ExternalReference : ptr (ExternalReference)
}.
Definition set_Signatory_Name (v : string) (x : Signatory) : Signatory :=
  mkSignatory v (Signatory_Role x) (Signatory_Signature x) (Signatory_Organization x) (Signatory_ExternalReference x).
Definition set_Signatory_Role (v : string) (x : Signatory) : Signatory :=
  mkSignatory (Signatory_Name x) v (Signatory_Signature x) (Signatory_Organization x) (Signatory_ExternalReference x).
Definition set_Signatory_Signature (v : ptr (JSFSignature)) (x : Signatory) : Signatory :=
  mkSignatory (Signatory_Name x) (Signatory_Role x) v (Signatory_Organization x) (Signatory_ExternalReference x).
Definition set_Signatory_Organization (v : ptr (OrganizationalEntity)) (x : Signatory) : Signatory :=
  mkSignatory (Signatory_Name x) (Signatory_Role x) (Signatory_Signature x) v (Signatory_ExternalReference x).
Definition set_Signatory_ExternalReference (v : ptr (ExternalReference)) (x : Signatory) : Signatory :=
  mkSignatory (Signatory_Name x) (Signatory_Role x) (Signatory_Signature x) (Signatory_Organization x) v.
Definition over_Signatory_Name (f : string -> string) (x : Signatory) : Signatory := set_Signatory_Name (f (Signatory_Name x)) x.
Definition over_Signatory_Role (f : string -> string) (x : Signatory) : Signatory := set_Signatory_Role (f (Signatory_Role x)) x.
Definition over_Signatory_Signature (f : ptr (JSFSignature) -> ptr (JSFSignature)) (x : Signatory) : Signatory := set_Signatory_Signature (f (Signatory_Signature x)) x.
Definition over_Signatory_Organization (f : ptr (OrganizationalEntity) -> ptr (OrganizationalEntity)) (x : Signatory) : Signatory := set_Signatory_Organization (f (Signatory_Organization x)) x.
Definition over_Signatory_ExternalReference (f : ptr (ExternalReference) -> ptr (ExternalReference)) (x : Signatory) : Signatory := set_Signatory_ExternalReference (f (Signatory_ExternalReference x)) x.
Definition zero_Signatory : Signatory := mkSignatory ("") ("") (None) (None) (None).

(** /repo/cyclonedx.go:630-634 *)
Record Affirmation := mkAffirmation {
  Affirmation_Statement : string;
  Affirmation_Signatories : ptr (slice (Signatory));
  Affirmation_Signature : ptr (JSFSignature)
}.
Definition set_Affirmation_Statement (v : string) (x : Affirmation) : Affirmation :=
  mkAffirmation v (Affirmation_Signatories x) (Affirmation_Signature x).
Definition set_Affirmation_Signatories (v : ptr (slice (Signatory))) (x : Affirmation) : Affirmation :=
  mkAffirmation (Affirmation_Statement x) v (Affirmation_Signature x).
Definition set_Affirmation_Signature (v : ptr (JSFSignature)) (x : Affirmation) : Affirmation :=
  mkAffirmation (Affirmation_Statement x) (Affirmation_Signatories x) v.
Definition over_Affirmation_Statement (f : string -> string) (x : Affirmation) : Affirmation := set_Affirmation_Statement (f (Affirmation_Statement x)) x.
Definition over_Affirmation_Signatories (f : ptr (slice (Signatory)) -> ptr (slice (Signatory))) (x : Affirmation) : Affirmation := set_Affirmation_Signatories (f (Affirmation_Signatories x)) x.
Definition over_Affirmation_Signature (f : ptr (JSFSignature) -> ptr (JSFSignature)) (x : Affirmation) : Affirmation := set_Affirmation_Signature (f (Affirmation_Signature x)) x.
Definition zero_Affirmation : Affirmation := mkAffirmation ("") (None) (None).

(** /repo/cyclonedx.go:576-584 *)
Record Declarations := mkDeclarations {
  Declarations_Assessors : ptr (slice (Assessor));
  Declarations_Attestations : ptr (slice (Attestation));
  Declarations_Claims : ptr (slice (Claim));
  Declarations_Evidence : ptr (slice (DeclarationEvidence));
  Declarations_Targets : ptr (Targets);
  Declarations_Affirmation : ptr (Affirmation);
  Declarations_Signature : ptr (JSFSignature)
}.
Definition set_Declarations_Assessors (v : ptr (slice (Assessor))) (x : Declarations) : Declarations :=
  mkDeclarations v (Declarations_Attestations x) (Declarations_Claims x) (Declarations_Evidence x) (Declarations_Targets x) (Declarations_Affirmation x) (Declarations_Signature x).
Definition set_Declarations_Attestations (v : ptr (slice (Attestation))) (x : Declarations) : Declarations :=
  mkDeclarations (Declarations_Assessors x) v (Declarations_Claims x) (Declarations_Evidence x) (Declarations_Targets x) (Declarations_Affirmation x) (Declarations_Signature x).
Definition set_Declarations_Claims (v : ptr (slice (Claim))) (x : Declarations) : Declarations :=
  mkDeclarations (Declarations_Assessors x) (Declarations_Attestations x) v (Declarations_Evidence x) (Declarations_Targets x) (Declarations_Affirmation x) (Declarations_Signature x).
Definition set_Declarations_Evidence (v : ptr (slice (DeclarationEvidence))) (x : Declarations) : Declarations :=
  mkDeclarations (Declarations_Assessors x) (Declarations_Attestations x) (Declarations_Claims x) v (Declarations_Targets x) (Declarations_Affirmation x) (Declarations_Signature x).
Definition set_Declarations_Targets (v : ptr (Targets)) (x : Declarations) : Declarations :=
  mkDeclarations (Declarations_Assessors x) (Declarations_Attestations x) (Declarations_Claims x) (Declarations_Evidence x) v (Declarations_Affirmation x) (Declarations_Signature x).
Definition set_Declarations_Affirmation (v : ptr (Affirmation)) (x : Declarations) : Declarations :=
  mkDeclarations (Declarations_Assessors x) (Declarations_Attestations x) (Declarations_Claims x) (Declarations_Evidence x) (Declarations_Targets x) v (Declarations_Signature x).
Definition set_Declarations_Signature (v : ptr (JSFSignature)) (x : Declarations) : Declarations :=
  mkDeclarations (Declarations_Assessors x) (Declarations_Attestations x) (Declarations_Claims x) (Declarations_Evidence x) (Declarations_Targets x) (Declarations_Affirmation x) v.
Definition over_Declarations_Assessors (f : ptr (slice (Assessor)) -> ptr (slice (Assessor))) (x : Declarations) : Declarations := set_Declarations_Assessors (f (Declarations_Assessors x)) x.
Definition over_Declarations_Attestations (f : ptr (slice (Attestation)) -> ptr (slice (Attestation))) (x : Declarations) : Declarations := set_Declarations_Attestations (f (Declarations_Attestations x)) x.
Definition over_Declarations_Claims (f : ptr (slice (Claim)) -> ptr (slice (Claim))) (x : Declarations) : Declarations := set_Declarations_Claims (f (Declarations_Claims x)) x.
Definition over_Declarations_Evidence (f : ptr (slice (DeclarationEvidence)) -> ptr (slice (DeclarationEvidence))) (x : Declarations) : Declarations := set_Declarations_Evidence (f (Declarations_Evidence x)) x.
Definition over_Declarations_Targets (f : ptr (Targets) -> ptr (Targets)) (x : Declarations) : Declarations := set_Declarations_Targets (f (Declarations_Targets x)) x.
Definition over_Declarations_Affirmation (f : ptr (Affirmation) -> ptr (Affirmation)) (x : Declarations) : Declarations := set_Declarations_Affirmation (f (Declarations_Affirmation x)) x.
Definition over_Declarations_Signature (f : ptr (JSFSignature) -> ptr (JSFSignature)) (x : Declarations) : Declarations := set_Declarations_Signature (f (Declarations_Signature x)) x.
Definition zero_Declarations : Declarations := mkDeclarations (None) (None) (None) (None) (None) (None) (None).

(** /repo/cyclonedx.go:1429-1439 *)
Record StandardRequirement := mkStandardRequirement {
  StandardRequirement_BOMRef : string;
  StandardRequirement_Identifier : string;
  StandardRequirement_Title : string;
  StandardRequirement_Text : string;
  StandardRequirement_Descriptions : ptr (slice (string));
  StandardRequirement_OpenCRE : ptr (slice (string));
  StandardRequirement_Parent : string;
  StandardRequirement_Properties : ptr (slice (Property));
  StandardRequirement_ExternalReferences : ptr (slice (ExternalReference))
}.
Definition set_StandardRequirement_BOMRef (v : string) (x : StandardRequirement) : StandardRequirement :=
  mkStandardRequirement v (StandardRequirement_Identifier x) (StandardRequirement_Title x) (StandardRequirement_Text x) (StandardRequirement_Descriptions x) (StandardRequirement_OpenCRE x) (StandardRequirement_Parent x) (StandardRequirement_Properties x) (StandardRequirement_ExternalReferences x).
Definition set_StandardRequirement_Identifier (v : string) (x : StandardRequirement) : StandardRequirement :=
  mkStandardRequirement (StandardRequirement_BOMRef x) v (StandardRequirement_Title x) (StandardRequirement_Text x) (StandardRequirement_Descriptions x) (StandardRequirement_OpenCRE x) (StandardRequirement_Parent x) (StandardRequirement_Properties x) (StandardRequirement_ExternalReferences x).
Definition set_StandardRequirement_Title (v : string) (x : StandardRequirement) : StandardRequirement :=
  mkStandardRequirement (StandardRequirement_BOMRef x) (StandardRequirement_Identifier x) v (StandardRequirement_Text x) (StandardRequirement_Descriptions x) (StandardRequirement_OpenCRE x) (StandardRequirement_Parent x) (StandardRequirement_Properties x) (StandardRequirement_ExternalReferences x).
Definition set_StandardRequirement_Text (v : string) (x : StandardRequirement) : StandardRequirement :=
  mkStandardRequirement (StandardRequirement_BOMRef x) (StandardRequirement_Identifier x) (StandardRequirement_Title x) v (StandardRequirement_Descriptions x) (StandardRequirement_OpenCRE x) (StandardRequirement_Parent x) (StandardRequirement_Properties x) (StandardRequirement_ExternalReferences x).
Definition set_StandardRequirement_Descriptions (v : ptr (slice (string))) (x : StandardRequirement) : StandardRequirement :=
  mkStandardRequirement (StandardRequirement_BOMRef x) (StandardRequirement_Identifier x) (StandardRequirement_Title x) (StandardRequirement_Text x) v (StandardRequirement_OpenCRE x) (StandardRequirement_Parent x) (StandardRequirement_Properties x) (StandardRequirement_ExternalReferences x).
Definition set_StandardRequirement_OpenCRE (v : ptr (slice (string))) (x : StandardRequirement) : StandardRequirement :=
  mkStandardRequirement (StandardRequirement_BOMRef x) (StandardRequirement_Identifier x) (StandardRequirement_Title x) (StandardRequirement_Text x) (StandardRequirement_Descriptions x) v (StandardRequirement_Parent x) (StandardRequirement_Properties x) (StandardRequirement_ExternalReferences x).
Definition set_StandardRequirement_Parent (v : string) (x : StandardRequirement) : StandardRequirement :=
  mkStandardRequirement (StandardRequirement_BOMRef x) (StandardRequirement_Identifier x) (StandardRequirement_Title x) (StandardRequirement_Text x) (StandardRequirement_Descriptions x) (StandardRequirement_OpenCRE x) v (StandardRequirement_Properties x) (StandardRequirement_ExternalReferences x).
Definition set_StandardRequirement_Properties (v : ptr (slice (Property))) (x : StandardRequirement) : StandardRequirement :=
  mkStandardRequirement (StandardRequirement_BOMRef x) (StandardRequirement_Identifier x) (StandardRequirement_Title x) (StandardRequirement_Text x) (StandardRequirement_Descriptions x) (StandardRequirement_OpenCRE x) (StandardRequirement_Parent x) v (StandardRequirement_ExternalReferences x).
Definition set_StandardRequirement_ExternalReferences (v : ptr (slice (ExternalReference))) (x : StandardRequirement) : StandardRequirement :=
  mkStandardRequirement (StandardRequirement_BOMRef x) (StandardRequirement_Identifier x) (StandardRequirement_Title x) (StandardRequirement_Text x) (StandardRequirement_Descriptions x) (StandardRequirement_OpenCRE x) (StandardRequirement_Parent x) (StandardRequirement_Properties x) v.
Definition over_StandardRequirement_BOMRef (f : string -> string) (x : StandardRequirement) : StandardRequirement := set_StandardRequirement_BOMRef (f (StandardRequirement_BOMRef x)) x.
Definition over_StandardRequirement_Identifier (f : string -> string) (x : StandardRequirement) : StandardRequirement := set_StandardRequirement_Identifier (f (StandardRequirement_Identifier x)) x.
Definition over_StandardRequirement_Title (f : string -> string) (x : StandardRequirement) : StandardRequirement := set_StandardRequirement_Title (f (StandardRequirement_Title x)) x.
Definition over_StandardRequirement_Text (f : string -> string) (x : StandardRequirement) : StandardRequirement := set_StandardRequirement_Text (f (StandardRequirement_Text x)) x.
Definition over_StandardRequirement_Descriptions (f : ptr (slice (string)) -> ptr (slice (string))) (x : StandardRequirement) : StandardRequirement := set_StandardRequirement_Descriptions (f (StandardRequirement_Descriptions x)) x.
Definition over_StandardRequirement_OpenCRE (f : ptr (slice (string)) -> ptr (slice (string))) (x : StandardRequirement) : StandardRequirement := set_StandardRequirement_OpenCRE (f (StandardRequirement_OpenCRE x)) x.
Definition over_StandardRequirement_Parent (f : string -> string) (x : StandardRequirement) : StandardRequirement := set_StandardRequirement_Parent (f (StandardRequirement_Parent x)) x.
Definition over_StandardRequirement_Properties (f : ptr (slice (Property)) -> ptr (slice (Property))) (x : StandardRequirement) : StandardRequirement := set_StandardRequirement_Properties (f (StandardRequirement_Properties x)) x.
Definition over_StandardRequirement_ExternalReferences (f : ptr (slice (ExternalReference)) -> ptr (slice (ExternalReference))) (x : StandardRequirement) : StandardRequirement := set_StandardRequirement_ExternalReferences (f (StandardRequirement_ExternalReferences x)) x.
Definition zero_StandardRequirement : StandardRequirement := mkStandardRequirement ("") ("") ("") ("") (None) (None) ("") (None) (None).

(** /repo/cyclonedx.go:1441-1447 *)
Record StandardLevel := mkStandardLevel {
  StandardLevel_BOMRef : string;
  StandardLevel_Identifier : string;
  StandardLevel_Title : string;
  StandardLevel_Description : string;
  StandardLevel_Requirements : ptr (slice (string))
}.
Definition set_StandardLevel_BOMRef (v : string) (x : StandardLevel) : StandardLevel :=
  mkStandardLevel v (StandardLevel_Identifier x) (StandardLevel_Title x) (StandardLevel_Description x) (StandardLevel_Requirements x).
Definition set_StandardLevel_Identifier (v : string) (x : StandardLevel) : StandardLevel :=
  mkStandardLevel (StandardLevel_BOMRef x) v (StandardLevel_Title x) (StandardLevel_Description x) (StandardLevel_Requirements x).
Definition set_StandardLevel_Title (v : string) (x : StandardLevel) : StandardLevel :=
  mkStandardLevel (StandardLevel_BOMRef x) (StandardLevel_Identifier x) v (StandardLevel_Description x) (StandardLevel_Requirements x).
Definition set_StandardLevel_Description (v : string) (x : StandardLevel) : StandardLevel :=
  mkStandardLevel (StandardLevel_BOMRef x) (StandardLevel_Identifier x) (StandardLevel_Title x) v (StandardLevel_Requirements x).
Definition set_StandardLevel_Requirements (v : ptr (slice (string))) (x : StandardLevel) : StandardLevel :=
  mkStandardLevel (StandardLevel_BOMRef x) (StandardLevel_Identifier x) (StandardLevel_Title x) (StandardLevel_Description x) v.
Definition over_StandardLevel_BOMRef (f : string -> string) (x : StandardLevel) : StandardLevel := set_StandardLevel_BOMRef (f (StandardLevel_BOMRef x)) x.
Definition over_StandardLevel_Identifier (f : string -> string) (x : StandardLevel) : StandardLevel := set_StandardLevel_Identifier (f (StandardLevel_Identifier x)) x.
Definition over_StandardLevel_Title (f : string -> string) (x : StandardLevel) : StandardLevel := set_StandardLevel_Title (f (StandardLevel_Title x)) x.
Definition over_StandardLevel_Description (f : string -> string) (x : StandardLevel) : StandardLevel := set_StandardLevel_Description (f (StandardLevel_Description x)) x.
Definition over_StandardLevel_Requirements (f : ptr (slice (string)) -> ptr (slice (string))) (x : StandardLevel) : StandardLevel := set_StandardLevel_Requirements (f (StandardLevel_Requirements x)) x.
Definition zero_StandardLevel : StandardLevel := mkStandardLevel ("") ("") ("") ("") (None).

(** /repo/cyclonedx.go:1416-1427 *)
Record StandardDefinition := mkStandardDefinition {
  StandardDefinition_BOMRef : string;
  StandardDefinition_Name : string;
  StandardDefinition_Version : string;
  StandardDefinition_Description : string;
  StandardDefinition_Owner : string;
  StandardDefinition_Requirements : ptr (slice (StandardRequirement));
  StandardDefinition_Levels : ptr (slice (StandardLevel));
  StandardDefinition_ExternalReferences : ptr (slice (ExternalReference));
  StandardDefinition_Signature : ptr (JSFSignature)
}.
Definition set_StandardDefinition_BOMRef (v : string) (x : StandardDefinition) : StandardDefinition :=
  mkStandardDefinition v (StandardDefinition_Name x) (StandardDefinition_Version x) (StandardDefinition_Description x) (StandardDefinition_Owner x) (StandardDefinition_Requirements x) (StandardDefinition_Levels x) (StandardDefinition_ExternalReferences x) (StandardDefinition_Signature x).
Definition set_StandardDefinition_Name (v : string) (x : StandardDefinition) : StandardDefinition :=
  mkStandardDefinition (StandardDefinition_BOMRef x) v (StandardDefinition_Version x) (StandardDefinition_Description x) (StandardDefinition_Owner x) (StandardDefinition_Requirements x) (StandardDefinition_Levels x) (StandardDefinition_ExternalReferences x) (StandardDefinition_Signature x).
Definition set_StandardDefinition_Version (v : string) (x : StandardDefinition) : StandardDefinition :=
  mkStandardDefinition (StandardDefinition_BOMRef x) (StandardDefinition_Name x) v (StandardDefinition_Description x) (StandardDefinition_Owner x) (StandardDefinition_Requirements x) (StandardDefinition_Levels x) (StandardDefinition_ExternalReferences x) (StandardDefinition_Signature x).
Definition set_StandardDefinition_Description (v : string) (x : StandardDefinition) : StandardDefinition :=
  mkStandardDefinition (StandardDefinition_BOMRef x) (StandardDefinition_Name x) (StandardDefinition_Version x) v (StandardDefinition_Owner x) (StandardDefinition_Requirements x) (StandardDefinition_Levels x) (StandardDefinition_ExternalReferences x) (StandardDefinition_Signature x).
Definition set_StandardDefinition_Owner (v : string) (x : StandardDefinition) : StandardDefinition :=
  mkStandardDefinition (StandardDefinition_BOMRef x) (StandardDefinition_Name x) (StandardDefinition_Version x) (StandardDefinition_Description x) v (StandardDefinition_Requirements x) (StandardDefinition_Levels x) (StandardDefinition_ExternalReferences x) (StandardDefinition_Signature x).
Definition set_StandardDefinition_Requirements (v : ptr (slice (StandardRequirement))) (x : StandardDefinition) : StandardDefinition :=
  mkStandardDefinition (StandardDefinition_BOMRef x) (StandardDefinition_Name x) (StandardDefinition_Version x) (StandardDefinition_Description x) (StandardDefinition_Owner x) v (StandardDefinition_Levels x) (StandardDefinition_ExternalReferences x) (StandardDefinition_Signature x).
Definition set_StandardDefinition_Levels (v : ptr (slice (StandardLevel))) (x : StandardDefinition) : StandardDefinition :=
  mkStandardDefinition (StandardDefinition_BOMRef x) (StandardDefinition_Name x) (StandardDefinition_Version x) (StandardDefinition_Description x) (StandardDefinition_Owner x) (StandardDefinition_Requirements x) v (StandardDefinition_ExternalReferences x) (StandardDefinition_Signature x).
Definition set_StandardDefinition_ExternalReferences (v : ptr (slice (ExternalReference))) (x : StandardDefinition) : StandardDefinition :=
  mkStandardDefinition (StandardDefinition_BOMRef x) (StandardDefinition_Name x) (StandardDefinition_Version x) (StandardDefinition_Description x) (StandardDefinition_Owner x) (StandardDefinition_Requirements x) (StandardDefinition_Levels x) v (StandardDefinition_Signature x).
Definition set_StandardDefinition_Signature (v : ptr (JSFSignature)) (x : StandardDefinition) : StandardDefinition :=
  mkStandardDefinition (StandardDefinition_BOMRef x) (StandardDefinition_Name x) (StandardDefinition_Version x) (StandardDefinition_Description x) (StandardDefinition_Owner x) (StandardDefinition_Requirements x) (StandardDefinition_Levels x) (StandardDefinition_ExternalReferences x) v.
Definition over_StandardDefinition_BOMRef (f : string -> string) (x : StandardDefinition) : StandardDefinition := set_StandardDefinition_BOMRef (f (StandardDefinition_BOMRef x)) x.
Definition over_StandardDefinition_Name (f : string -> string) (x : StandardDefinition) : StandardDefinition := set_StandardDefinition_Name (f (StandardDefinition_Name x)) x.
Definition over_StandardDefinition_Version (f : string -> string) (x : StandardDefinition) : StandardDefinition := set_StandardDefinition_Version (f (StandardDefinition_Version x)) x.
Definition over_StandardDefinition_Description (f : string -> string) (x : StandardDefinition) : StandardDefinition := set_StandardDefinition_Description (f (StandardDefinition_Description x)) x.
Definition over_StandardDefinition_Owner (f : string -> string) (x : StandardDefinition) : StandardDefinition := set_StandardDefinition_Owner (f (StandardDefinition_Owner x)) x.
Definition over_StandardDefinition_Requirements (f : ptr (slice (StandardRequirement)) -> ptr (slice (StandardRequirement))) (x : StandardDefinition) : StandardDefinition := set_StandardDefinition_Requirements (f (StandardDefinition_Requirements x)) x.
Definition over_StandardDefinition_Levels (f : ptr (slice (StandardLevel)) -> ptr (slice (StandardLevel))) (x : StandardDefinition) : StandardDefinition := set_StandardDefinition_Levels (f (StandardDefinition_Levels x)) x.
Definition over_StandardDefinition_ExternalReferences (f : ptr (slice (ExternalReference)) -> ptr (slice (ExternalReference))) (x : StandardDefinition) : StandardDefinition := set_StandardDefinition_ExternalReferences (f (StandardDefinition_ExternalReferences x)) x.
Definition over_StandardDefinition_Signature (f : ptr (JSFSignature) -> ptr (JSFSignature)) (x : StandardDefinition) : StandardDefinition := set_StandardDefinition_Signature (f (StandardDefinition_Signature x)) x.
Definition zero_StandardDefinition : StandardDefinition := mkStandardDefinition ("") ("") ("") ("") ("") (None) (None) (None) (None).

(** /repo/cyclonedx.go:1802-1806 *)
Record PriorityApplication := mkPriorityApplication {
  PriorityApplication_ApplicationNumber : string;
  PriorityApplication_Jurisdiction : string;
  PriorityApplication_FilingDate : string
}.
Definition set_PriorityApplication_ApplicationNumber (v : string) (x : PriorityApplication) : PriorityApplication :=
  mkPriorityApplication v (PriorityApplication_Jurisdiction x) (PriorityApplication_FilingDate x).
Definition set_PriorityApplication_Jurisdiction (v : string) (x : PriorityApplication) : PriorityApplication :=
  mkPriorityApplication (PriorityApplication_ApplicationNumber x) v (PriorityApplication_FilingDate x).
Definition set_PriorityApplication_FilingDate (v : string) (x : PriorityApplication) : PriorityApplication :=
  mkPriorityApplication (PriorityApplication_ApplicationNumber x) (PriorityApplication_Jurisdiction x) v.
Definition over_PriorityApplication_ApplicationNumber (f : string -> string) (x : PriorityApplication) : PriorityApplication := set_PriorityApplication_ApplicationNumber (f (PriorityApplication_ApplicationNumber x)) x.
Definition over_PriorityApplication_Jurisdiction (f : string -> string) (x : PriorityApplication) : PriorityApplication := set_PriorityApplication_Jurisdiction (f (PriorityApplication_Jurisdiction x)) x.
Definition over_PriorityApplication_FilingDate (f : string -> string) (x : PriorityApplication) : PriorityApplication := set_PriorityApplication_FilingDate (f (PriorityApplication_FilingDate x)) x.
Definition zero_PriorityApplication : PriorityApplication := mkPriorityApplication ("") ("") ("").

(** /repo/cyclonedx.go:1743-1758 *)
Record Patent := mkPatent {
  Patent_BOMRef : string;
  Patent_PatentNumber : string;
  Patent_ApplicationNumber : string;
  Patent_Jurisdiction : string;
  Patent_PriorityApplication : ptr (PriorityApplication);
  Patent_PublicationNumber : string;
  Patent_Title : string;
  Patent_Abstract : string;
  Patent_FilingDate : string;
  Patent_GrantDate : string;
  Patent_PatentExpirationDate : string;
  Patent_PatentLegalStatus : PatentLegalStatus;
  Patent_PatentAssignee : ptr (slice (OrganizationalEntityOrContact));
  Patent_ExternalReferences : ptr (slice (ExternalReference))
}.
Definition set_Patent_BOMRef (v : string) (x : Patent) : Patent :=
  mkPatent v (Patent_PatentNumber x) (Patent_ApplicationNumber x) (Patent_Jurisdiction x) (Patent_PriorityApplication x) (Patent_PublicationNumber x) (Patent_Title x) (Patent_Abstract x) (Patent_FilingDate x) (Patent_GrantDate x) (Patent_PatentExpirationDate x) (Patent_PatentLegalStatus x) (Patent_PatentAssignee x) (Patent_ExternalReferences x).
Definition set_Patent_PatentNumber (v : string) (x : Patent) : Patent :=
  mkPatent (Patent_BOMRef x) v (Patent_ApplicationNumber x) (Patent_Jurisdiction x) (Patent_PriorityApplication x) (Patent_PublicationNumber x) (Patent_Title x) (Patent_Abstract x) (Patent_FilingDate x) (Patent_GrantDate x) (Patent_PatentExpirationDate x) (Patent_PatentLegalStatus x) (Patent_PatentAssignee x) (Patent_ExternalReferences x).
Definition set_Patent_ApplicationNumber (v : string) (x : Patent) : Patent :=
  mkPatent (Patent_BOMRef x) (Patent_PatentNumber x) v (Patent_Jurisdiction x) (Patent_PriorityApplication x) (Patent_PublicationNumber x) (Patent_Title x) (Patent_Abstract x) (Patent_FilingDate x) (Patent_GrantDate x) (Patent_PatentExpirationDate x) (Patent_PatentLegalStatus x) (Patent_PatentAssignee x) (Patent_ExternalReferences x).
Definition set_Patent_Jurisdiction (v : string) (x : Patent) : Patent :=
  mkPatent (Patent_BOMRef x) (Patent_PatentNumber x) (Patent_ApplicationNumber x) v (Patent_PriorityApplication x) (Patent_PublicationNumber x) (Patent_Title x) (Patent_Abstract x) (Patent_FilingDate x) (Patent_GrantDate x) (Patent_PatentExpirationDate x) (Patent_PatentLegalStatus x) (Patent_PatentAssignee x) (Patent_ExternalReferences x).
Definition set_Patent_PriorityApplication (v : ptr (PriorityApplication)) (x : Patent) : Patent :=
  mkPatent (Patent_BOMRef x) (Patent_PatentNumber x) (Patent_ApplicationNumber x) (Patent_Jurisdiction x) v (Patent_PublicationNumber x) (Patent_Title x) (Patent_Abstract x) (Patent_FilingDate x) (Patent_GrantDate x) (Patent_PatentExpirationDate x) (Patent_PatentLegalStatus x) (Patent_PatentAssignee x) (Patent_ExternalReferences x).
Definition set_Patent_PublicationNumber (v : string) (x : Patent) : Patent :=
  mkPatent (Patent_BOMRef x) (Patent_PatentNumber x) (Patent_ApplicationNumber x) (Patent_Jurisdiction x) (Patent_PriorityApplication x) v (Patent_Title x) (Patent_Abstract x) (Patent_FilingDate x) (Patent_GrantDate x) (Patent_PatentExpirationDate x) (Patent_PatentLegalStatus x) (Patent_PatentAssignee x) (Patent_ExternalReferences x).
Definition set_Patent_Title (v : string) (x : Patent) : Patent :=
  mkPatent (Patent_BOMRef x) (Patent_PatentNumber x) (Patent_ApplicationNumber x) (Patent_Jurisdiction x) (Patent_PriorityApplication x) (Patent_PublicationNumber x) v (Patent_Abstract x) (Patent_FilingDate x) (Patent_GrantDate x) (Patent_PatentExpirationDate x) (Patent_PatentLegalStatus x) (Patent_PatentAssignee x) (Patent_ExternalReferences x).
Definition set_Patent_Abstract (v : string) (x : Patent) : Patent :=
  mkPatent (Patent_BOMRef x) (Patent_PatentNumber x) (Patent_ApplicationNumber x) (Patent_Jurisdiction x) (Patent_PriorityApplication x) (Patent_PublicationNumber x) (Patent_Title x) v (Patent_FilingDate x) (Patent_GrantDate x) (Patent_PatentExpirationDate x) (Patent_PatentLegalStatus x) (Patent_PatentAssignee x) (Patent_ExternalReferences x).
Definition set_Patent_FilingDate (v : string) (x : Patent) : Patent :=
  mkPatent (Patent_BOMRef x) (Patent_PatentNumber x) (Patent_ApplicationNumber x) (Patent_Jurisdiction x) (Patent_PriorityApplication x) (Patent_PublicationNumber x) (Patent_Title x) (Patent_Abstract x) v (Patent_GrantDate x) (Patent_PatentExpirationDate x) (Patent_PatentLegalStatus x) (Patent_PatentAssignee x) (Patent_ExternalReferences x).
Definition set_Patent_GrantDate (v : string) (x : Patent) : Patent :=
  mkPatent (Patent_BOMRef x) (Patent_PatentNumber x) (Patent_ApplicationNumber x) (Patent_Jurisdiction x) (Patent_PriorityApplication x) (Patent_PublicationNumber x) (Patent_Title x) (Patent_Abstract x) (Patent_FilingDate x) v (Patent_PatentExpirationDate x) (Patent_PatentLegalStatus x) (Patent_PatentAssignee x) (Patent_ExternalReferences x).
Definition set_Patent_PatentExpirationDate (v : string) (x : Patent) : Patent :=
  mkPatent (Patent_BOMRef x) (Patent_PatentNumber x) (Patent_ApplicationNumber x) (Patent_Jurisdiction x) (Patent_PriorityApplication x) (Patent_PublicationNumber x) (Patent_Title x) (Patent_Abstract x) (Patent_FilingDate x) (Patent_GrantDate x) v (Patent_PatentLegalStatus x) (Patent_PatentAssignee x) (Patent_ExternalReferences x).
Definition set_Patent_PatentLegalStatus (v : PatentLegalStatus) (x : Patent) : Patent :=
  mkPatent (Patent_BOMRef x) (Patent_PatentNumber x) (Patent_ApplicationNumber x) (Patent_Jurisdiction x) (Patent_PriorityApplication x) (Patent_PublicationNumber x) (Patent_Title x) (Patent_Abstract x) (Patent_FilingDate x) (Patent_GrantDate x) (Patent_PatentExpirationDate x) v (Patent_PatentAssignee x) (Patent_ExternalReferences x).
Definition set_Patent_PatentAssignee (v : ptr (slice (OrganizationalEntityOrContact))) (x : Patent) : Patent :=
  mkPatent (Patent_BOMRef x) (Patent_PatentNumber x) (Patent_ApplicationNumber x) (Patent_Jurisdiction x) (Patent_PriorityApplication x) (Patent_PublicationNumber x) (Patent_Title x) (Patent_Abstract x) (Patent_FilingDate x) (Patent_GrantDate x) (Patent_PatentExpirationDate x) (Patent_PatentLegalStatus x) v (Patent_ExternalReferences x).
Definition set_Patent_ExternalReferences (v : ptr (slice (ExternalReference))) (x : Patent) : Patent :=
  mkPatent (Patent_BOMRef x) (Patent_PatentNumber x) (Patent_ApplicationNumber x) (Patent_Jurisdiction x) (Patent_PriorityApplication x) (Patent_PublicationNumber x) (Patent_Title x) (Patent_Abstract x) (Patent_FilingDate x) (Patent_GrantDate x) (Patent_PatentExpirationDate x) (Patent_PatentLegalStatus x) (Patent_PatentAssignee x) v.
Definition over_Patent_BOMRef (f : string -> string) (x : Patent) : Patent := set_Patent_BOMRef (f (Patent_BOMRef x)) x.
Definition over_Patent_PatentNumber (f : string -> string) (x : Patent) : Patent := set_Patent_PatentNumber (f (Patent_PatentNumber x)) x.
Definition over_Patent_ApplicationNumber (f : string -> string) (x : Patent) : Patent := set_Patent_ApplicationNumber (f (Patent_ApplicationNumber x)) x.
Definition over_Patent_Jurisdiction (f : string -> string) (x : Patent) : Patent := set_Patent_Jurisdiction (f (Patent_Jurisdiction x)) x.
Definition over_Patent_PriorityApplication (f : ptr (PriorityApplication) -> ptr (PriorityApplication)) (x : Patent) : Patent := set_Patent_PriorityApplication (f (Patent_PriorityApplication x)) x.
Definition over_Patent_PublicationNumber (f : string -> string) (x : Patent) : Patent := set_Patent_PublicationNumber (f (Patent_PublicationNumber x)) x.
Definition over_Patent_Title (f : string -> string) (x : Patent) : Patent := set_Patent_Title (f (Patent_Title x)) x.
Definition over_Patent_Abstract (f : string -> string) (x : Patent) : Patent := set_Patent_Abstract (f (Patent_Abstract x)) x.
Definition over_Patent_FilingDate (f : string -> string) (x : Patent) : Patent := set_Patent_FilingDate (f (Patent_FilingDate x)) x.
Definition over_Patent_GrantDate (f : string -> string) (x : Patent) : Patent := set_Patent_GrantDate (f (Patent_GrantDate x)) x.
Definition over_Patent_PatentExpirationDate (f : string -> string) (x : Patent) : Patent := set_Patent_PatentExpirationDate (f (Patent_PatentExpirationDate x)) x.
Definition over_Patent_PatentLegalStatus (f : PatentLegalStatus -> PatentLegalStatus) (x : Patent) : Patent := set_Patent_PatentLegalStatus (f (Patent_PatentLegalStatus x)) x.
Definition over_Patent_PatentAssignee (f : ptr (slice (OrganizationalEntityOrContact)) -> ptr (slice (OrganizationalEntityOrContact))) (x : Patent) : Patent := set_Patent_PatentAssignee (f (Patent_PatentAssignee x)) x.
Definition over_Patent_ExternalReferences (f : ptr (slice (ExternalReference)) -> ptr (slice (ExternalReference))) (x : Patent) : Patent := set_Patent_ExternalReferences (f (Patent_ExternalReferences x)) x.
Definition zero_Patent : Patent := mkPatent ("") ("") ("") ("") (None) ("") ("") ("") ("") ("") ("") ("") (None) (None).

(** /repo/cyclonedx.go:1761-1767 *)
Record PatentFamily := mkPatentFamily {
  PatentFamily_BOMRef : string;
  PatentFamily_FamilyID : string;
  PatentFamily_PriorityApplication : ptr (PriorityApplication);
  PatentFamily_Members : ptr (slice (BOMReference));
  PatentFamily_ExternalReferences : ptr (slice (ExternalReference))
}.
Definition set_PatentFamily_BOMRef (v : string) (x : PatentFamily) : PatentFamily :=
  mkPatentFamily v (PatentFamily_FamilyID x) (PatentFamily_PriorityApplication x) (PatentFamily_Members x) (PatentFamily_ExternalReferences x).
Definition set_PatentFamily_FamilyID (v : string) (x : PatentFamily) : PatentFamily :=
  mkPatentFamily (PatentFamily_BOMRef x) v (PatentFamily_PriorityApplication x) (PatentFamily_Members x) (PatentFamily_ExternalReferences x).
Definition set_PatentFamily_PriorityApplication (v : ptr (PriorityApplication)) (x : PatentFamily) : PatentFamily :=
  mkPatentFamily (PatentFamily_BOMRef x) (PatentFamily_FamilyID x) v (PatentFamily_Members x) (PatentFamily_ExternalReferences x).
Definition set_PatentFamily_Members (v : ptr (slice (BOMReference))) (x : PatentFamily) : PatentFamily :=
  mkPatentFamily (PatentFamily_BOMRef x) (PatentFamily_FamilyID x) (PatentFamily_PriorityApplication x) v (PatentFamily_ExternalReferences x).
Definition set_PatentFamily_ExternalReferences (v : ptr (slice (ExternalReference))) (x : PatentFamily) : PatentFamily :=
  mkPatentFamily (PatentFamily_BOMRef x) (PatentFamily_FamilyID x) (PatentFamily_PriorityApplication x) (PatentFamily_Members x) v.
Definition over_PatentFamily_BOMRef (f : string -> string) (x : PatentFamily) : PatentFamily := set_PatentFamily_BOMRef (f (PatentFamily_BOMRef x)) x.
Definition over_PatentFamily_FamilyID (f : string -> string) (x : PatentFamily) : PatentFamily := set_PatentFamily_FamilyID (f (PatentFamily_FamilyID x)) x.
Definition over_PatentFamily_PriorityApplication (f : ptr (PriorityApplication) -> ptr (PriorityApplication)) (x : PatentFamily) : PatentFamily := set_PatentFamily_PriorityApplication (f (PatentFamily_PriorityApplication x)) x.
Definition over_PatentFamily_Members (f : ptr (slice (BOMReference)) -> ptr (slice (BOMReference))) (x : PatentFamily) : PatentFamily := set_PatentFamily_Members (f (PatentFamily_Members x)) x.
Definition over_PatentFamily_ExternalReferences (f : ptr (slice (ExternalReference)) -> ptr (slice (ExternalReference))) (x : PatentFamily) : PatentFamily := set_PatentFamily_ExternalReferences (f (PatentFamily_ExternalReferences x)) x.
Definition zero_PatentFamily : PatentFamily := mkPatentFamily ("") ("") (None) (None) (None).

(** /repo/cyclonedx.go:606-609 *)
Record PatentChoice := mkPatentChoice {
  PatentChoice_Patent : ptr (Patent);
  PatentChoice_PatentFamily : ptr (PatentFamily)
}.
Definition set_PatentChoice_Patent (v : ptr (Patent)) (x : PatentChoice) : PatentChoice :=
  mkPatentChoice v (PatentChoice_PatentFamily x).
Definition set_PatentChoice_PatentFamily (v : ptr (PatentFamily)) (x : PatentChoice) : PatentChoice :=
  mkPatentChoice (PatentChoice_Patent x) v.
Definition over_PatentChoice_Patent (f : ptr (Patent) -> ptr (Patent)) (x : PatentChoice) : PatentChoice := set_PatentChoice_Patent (f (PatentChoice_Patent x)) x.
Definition over_PatentChoice_PatentFamily (f : ptr (PatentFamily) -> ptr (PatentFamily)) (x : PatentChoice) : PatentChoice := set_PatentChoice_PatentFamily (f (PatentChoice_PatentFamily x)) x.
Definition zero_PatentChoice : PatentChoice := mkPatentChoice (None) (None).

(** /repo/cyclonedx.go:598-601 *)
Record Definitions := mkDefinitions {
  Definitions_Standards : ptr (slice (StandardDefinition));
  Definitions_Patents : ptr (slice (PatentChoice))
}.
Definition set_Definitions_Standards (v : ptr (slice (StandardDefinition))) (x : Definitions) : Definitions :=
  mkDefinitions v (Definitions_Patents x).
Definition set_Definitions_Patents (v : ptr (slice (PatentChoice))) (x : Definitions) : Definitions :=
  mkDefinitions (Definitions_Standards x) v.
Definition over_Definitions_Standards (f : ptr (slice (StandardDefinition)) -> ptr (slice (StandardDefinition))) (x : Definitions) : Definitions := set_Definitions_Standards (f (Definitions_Standards x)) x.
Definition over_Definitions_Patents (f : ptr (slice (PatentChoice)) -> ptr (slice (PatentChoice))) (x : Definitions) : Definitions := set_Definitions_Patents (f (Definitions_Patents x)) x.
Definition zero_Definitions : Definitions := mkDefinitions (None) (None).

(** /repo/cyclonedx.go:1712-1721 *)
Record Citation := mkCitation {
  Citation_BOMRef : string;
  Citation_Pointers : ptr (slice (string));
  Citation_Expressions : ptr (slice (string));
  Citation_Timestamp : string;
  Citation_AttributedTo : ptr (BOMReference);
  Citation_Process : string;
  Citation_Note : string;
  Citation_Signature : ptr (JSFSignature)
}.
Definition set_Citation_BOMRef (v : string) (x : Citation) : Citation :=
  mkCitation v (Citation_Pointers x) (Citation_Expressions x) (Citation_Timestamp x) (Citation_AttributedTo x) (Citation_Process x) (Citation_Note x) (Citation_Signature x).
Definition set_Citation_Pointers (v : ptr (slice (string))) (x : Citation) : Citation :=
  mkCitation (Citation_BOMRef x) v (Citation_Expressions x) (Citation_Timestamp x) (Citation_AttributedTo x) (Citation_Process x) (Citation_Note x) (Citation_Signature x).
Definition set_Citation_Expressions (v : ptr (slice (string))) (x : Citation) : Citation :=
  mkCitation (Citation_BOMRef x) (Citation_Pointers x) v (Citation_Timestamp x) (Citation_AttributedTo x) (Citation_Process x) (Citation_Note x) (Citation_Signature x).
Definition set_Citation_Timestamp (v : string) (x : Citation) : Citation :=
  mkCitation (Citation_BOMRef x) (Citation_Pointers x) (Citation_Expressions x) v (Citation_AttributedTo x) (Citation_Process x) (Citation_Note x) (Citation_Signature x).
Definition set_Citation_AttributedTo (v : ptr (BOMReference)) (x : Citation) : Citation :=
  mkCitation (Citation_BOMRef x) (Citation_Pointers x) (Citation_Expressions x) (Citation_Timestamp x) v (Citation_Process x) (Citation_Note x) (Citation_Signature x).
Definition set_Citation_Process (v : string) (x : Citation) : Citation :=
  mkCitation (Citation_BOMRef x) (Citation_Pointers x) (Citation_Expressions x) (Citation_Timestamp x) (Citation_AttributedTo x) v (Citation_Note x) (Citation_Signature x).
Definition set_Citation_Note (v : string) (x : Citation) : Citation :=
  mkCitation (Citation_BOMRef x) (Citation_Pointers x) (Citation_Expressions x) (Citation_Timestamp x) (Citation_AttributedTo x) (Citation_Process x) v (Citation_Signature x).
Definition set_Citation_Signature (v : ptr (JSFSignature)) (x : Citation) : Citation :=
  mkCitation (Citation_BOMRef x) (Citation_Pointers x) (Citation_Expressions x) (Citation_Timestamp x) (Citation_AttributedTo x) (Citation_Process x) (Citation_Note x) v.
Definition over_Citation_BOMRef (f : string -> string) (x : Citation) : Citation := set_Citation_BOMRef (f (Citation_BOMRef x)) x.
Definition over_Citation_Pointers (f : ptr (slice (string)) -> ptr (slice (string))) (x : Citation) : Citation := set_Citation_Pointers (f (Citation_Pointers x)) x.
Definition over_Citation_Expressions (f : ptr (slice (string)) -> ptr (slice (string))) (x : Citation) : Citation := set_Citation_Expressions (f (Citation_Expressions x)) x.
Definition over_Citation_Timestamp (f : string -> string) (x : Citation) : Citation := set_Citation_Timestamp (f (Citation_Timestamp x)) x.
Definition over_Citation_AttributedTo (f : ptr (BOMReference) -> ptr (BOMReference)) (x : Citation) : Citation := set_Citation_AttributedTo (f (Citation_AttributedTo x)) x.
Definition over_Citation_Process (f : string -> string) (x : Citation) : Citation := set_Citation_Process (f (Citation_Process x)) x.
Definition over_Citation_Note (f : string -> string) (x : Citation) : Citation := set_Citation_Note (f (Citation_Note x)) x.
Definition over_Citation_Signature (f : ptr (JSFSignature) -> ptr (JSFSignature)) (x : Citation) : Citation := set_Citation_Signature (f (Citation_Signature x)) x.
Definition zero_Citation : Citation := mkCitation ("") (None) (None) ("") (None) ("") ("") (None).

(** /repo/cyclonedx.go:105-131 *)
Record BOM := mkBOM {
  BOM_XMLName : XMLName;
  BOM_XMLNS : string;
  BOM_JSONSchema : string;
  BOM_BOMFormat : string;
  BOM_SpecVersion : SpecVersion;
  BOM_SerialNumber : string;
  BOM_Version : Z;
  BOM_Metadata : ptr (Metadata);
  BOM_Components : ptr (slice (Component));
  BOM_Services : ptr (slice (Service));
  BOM_ExternalReferences : ptr (slice (ExternalReference));
  BOM_Dependencies : ptr (slice (Dependency));
  BOM_Compositions : ptr (slice (Composition));
  BOM_Properties : ptr (slice (Property));
  BOM_Vulnerabilities : ptr (slice (Vulnerability));
  BOM_Annotations : ptr (slice (Annotation));
  BOM_Formulation : ptr (slice (Formula));
  BOM_Declarations : ptr (Declarations);
  BOM_Definitions : ptr (Definitions);
  BOM_Citations : ptr (slice (Citation));
  BOM_Signature : ptr (JSFSignature)
}.
Definition set_BOM_XMLName (v : XMLName) (x : BOM) : BOM :=
  mkBOM v (BOM_XMLNS x) (BOM_JSONSchema x) (BOM_BOMFormat x) (BOM_SpecVersion x) (BOM_SerialNumber x) (BOM_Version x) (BOM_Metadata x) (BOM_Components x) (BOM_Services x) (BOM_ExternalReferences x) (BOM_Dependencies x) (BOM_Compositions x) (BOM_Properties x) (BOM_Vulnerabilities x) (BOM_Annotations x) (BOM_Formulation x) (BOM_Declarations x) (BOM_Definitions x) (BOM_Citations x) (BOM_Signature x).
Definition set_BOM_XMLNS (v : string) (x : BOM) : BOM :=
  mkBOM (BOM_XMLName x) v (BOM_JSONSchema x) (BOM_BOMFormat x) (BOM_SpecVersion x) (BOM_SerialNumber x) (BOM_Version x) (BOM_Metadata x) (BOM_Components x) (BOM_Services x) (BOM_ExternalReferences x) (BOM_Dependencies x) (BOM_Compositions x) (BOM_Properties x) (BOM_Vulnerabilities x) (BOM_Annotations x) (BOM_Formulation x) (BOM_Declarations x) (BOM_Definitions x) (BOM_Citations x) (BOM_Signature x).
Definition set_BOM_JSONSchema (v : string) (x : BOM) : BOM :=
  mkBOM (BOM_XMLName x) (BOM_XMLNS x) v (BOM_BOMFormat x) (BOM_SpecVersion x) (BOM_SerialNumber x) (BOM_Version x) (BOM_Metadata x) (BOM_Components x) (BOM_Services x) (BOM_ExternalReferences x) (BOM_Dependencies x) (BOM_Compositions x) (BOM_Properties x) (BOM_Vulnerabilities x) (BOM_Annotations x) (BOM_Formulation x) (BOM_Declarations x) (BOM_Definitions x) (BOM_Citations x) (BOM_Signature x).
Definition set_BOM_BOMFormat (v : string) (x : BOM) : BOM :=
  mkBOM (BOM_XMLName x) (BOM_XMLNS x) (BOM_JSONSchema x) v (BOM_SpecVersion x) (BOM_SerialNumber x) (BOM_Version x) (BOM_Metadata x) (BOM_Components x) (BOM_Services x) (BOM_ExternalReferences x) (BOM_Dependencies x) (BOM_Compositions x) (BOM_Properties x) (BOM_Vulnerabilities x) (BOM_Annotations x) (BOM_Formulation x) (BOM_Declarations x) (BOM_Definitions x) (BOM_Citations x) (BOM_Signature x).
Definition set_BOM_SpecVersion (v : SpecVersion) (x : BOM) : BOM :=
  mkBOM (BOM_XMLName x) (BOM_XMLNS x) (BOM_JSONSchema x) (BOM_BOMFormat x) v (BOM_SerialNumber x) (BOM_Version x) (BOM_Metadata x) (BOM_Components x) (BOM_Services x) (BOM_ExternalReferences x) (BOM_Dependencies x) (BOM_Compositions x) (BOM_Properties x) (BOM_Vulnerabilities x) (BOM_Annotations x) (BOM_Formulation x) (BOM_Declarations x) (BOM_Definitions x) (BOM_Citations x) (BOM_Signature x).
Definition set_BOM_SerialNumber (v : string) (x : BOM) : BOM :=
  mkBOM (BOM_XMLName x) (BOM_XMLNS x) (BOM_JSONSchema x) (BOM_BOMFormat x) (BOM_SpecVersion x) v (BOM_Version x) (BOM_Metadata x) (BOM_Components x) (BOM_Services x) (BOM_ExternalReferences x) (BOM_Dependencies x) (BOM_Compositions x) (BOM_Properties x) (BOM_Vulnerabilities x) (BOM_Annotations x) (BOM_Formulation x) (BOM_Declarations x) (BOM_Definitions x) (BOM_Citations x) (BOM_Signature x).
Definition set_BOM_Version (v : Z) (x : BOM) : BOM :=
  mkBOM (BOM_XMLName x) (BOM_XMLNS x) (BOM_JSONSchema x) (BOM_BOMFormat x) (BOM_SpecVersion x) (BOM_SerialNumber x) v (BOM_Metadata x) (BOM_Components x) (BOM_Services x) (BOM_ExternalReferences x) (BOM_Dependencies x) (BOM_Compositions x) (BOM_Properties x) (BOM_Vulnerabilities x) (BOM_Annotations x) (BOM_Formulation x) (BOM_Declarations x) (BOM_Definitions x) (BOM_Citations x) (BOM_Signature x).
Definition set_BOM_Metadata (v : ptr (Metadata)) (x : BOM) : BOM :=
  mkBOM (BOM_XMLName x) (BOM_XMLNS x) (BOM_JSONSchema x) (BOM_BOMFormat x) (BOM_SpecVersion x) (BOM_SerialNumber x) (BOM_Version x) v (BOM_Components x) (BOM_Services x) (BOM_ExternalReferences x) (BOM_Dependencies x) (BOM_Compositions x) (BOM_Properties x) (BOM_Vulnerabilities x) (BOM_Annotations x) (BOM_Formulation x) (BOM_Declarations x) (BOM_Definitions x) (BOM_Citations x) (BOM_Signature x).
Definition set_BOM_Components (v : ptr (slice (Component))) (x : BOM) : BOM :=
  mkBOM (BOM_XMLName x) (BOM_XMLNS x) (BOM_JSONSchema x) (BOM_BOMFormat x) (BOM_SpecVersion x) (BOM_SerialNumber x) (BOM_Version x) (BOM_Metadata x) v (BOM_Services x) (BOM_ExternalReferences x) (BOM_Dependencies x) (BOM_Compositions x) (BOM_Properties x) (BOM_Vulnerabilities x) (BOM_Annotations x) (BOM_Formulation x) (BOM_Declarations x) (BOM_Definitions x) (BOM_Citations x) (BOM_Signature x).
Definition set_BOM_Services (v : ptr (slice (Service))) (x : BOM) : BOM :=
  mkBOM (BOM_XMLName x) (BOM_XMLNS x) (BOM_JSONSchema x) (BOM_BOMFormat x) (BOM_SpecVersion x) (BOM_SerialNumber x) (BOM_Version x) (BOM_Metadata x) (BOM_Components x) v (BOM_ExternalReferences x) (BOM_Dependencies x) (BOM_Compositions x) (BOM_Properties x) (BOM_Vulnerabilities x) (BOM_Annotations x) (BOM_Formulation x) (BOM_Declarations x) (BOM_Definitions x) (BOM_Citations x) (BOM_Signature x).
Definition set_BOM_ExternalReferences (v : ptr (slice (ExternalReference))) (x : BOM) : BOM :=
  mkBOM (BOM_XMLName x) (BOM_XMLNS x) (BOM_JSONSchema x) (BOM_BOMFormat x) (BOM_SpecVersion x) (BOM_SerialNumber x) (BOM_Version x) (BOM_Metadata x) (BOM_Components x) (BOM_Services x) v (BOM_Dependencies x) (BOM_Compositions x) (BOM_Properties x) (BOM_Vulnerabilities x) (BOM_Annotations x) (BOM_Formulation x) (BOM_Declarations x) (BOM_Definitions x) (BOM_Citations x) (BOM_Signature x).
Definition set_BOM_Dependencies (v : ptr (slice (Dependency))) (x : BOM) : BOM :=
  mkBOM (BOM_XMLName x) (BOM_XMLNS x) (BOM_JSONSchema x) (BOM_BOMFormat x) (BOM_SpecVersion x) (BOM_SerialNumber x) (BOM_Version x) (BOM_Metadata x) (BOM_Components x) (BOM_Services x) (BOM_ExternalReferences x) v (BOM_Compositions x) (BOM_Properties x) (BOM_Vulnerabilities x) (BOM_Annotations x) (BOM_Formulation x) (BOM_Declarations x) (BOM_Definitions x) (BOM_Citations x) (BOM_Signature x).
Definition set_BOM_Compositions (v : ptr (slice (Composition))) (x : BOM) : BOM :=
  mkBOM (BOM_XMLName x) (BOM_XMLNS x) (BOM_JSONSchema x) (BOM_BOMFormat x) (BOM_SpecVersion x) (BOM_SerialNumber x) (BOM_Version x) (BOM_Metadata x) (BOM_Components x) (BOM_Services x) (BOM_ExternalReferences x) (BOM_Dependencies x) v (BOM_Properties x) (BOM_Vulnerabilities x) (BOM_Annotations x) (BOM_Formulation x) (BOM_Declarations x) (BOM_Definitions x) (BOM_Citations x) (BOM_Signature x).
Definition set_BOM_Properties (v : ptr (slice (Property))) (x : BOM) : BOM :=
  mkBOM (BOM_XMLName x) (BOM_XMLNS x) (BOM_JSONSchema x) (BOM_BOMFormat x) (BOM_SpecVersion x) (BOM_SerialNumber x) (BOM_Version x) (BOM_Metadata x) (BOM_Components x) (BOM_Services x) (BOM_ExternalReferences x) (BOM_Dependencies x) (BOM_Compositions x) v (BOM_Vulnerabilities x) (BOM_Annotations x) (BOM_Formulation x) (BOM_Declarations x) (BOM_Definitions x) (BOM_Citations x) (BOM_Signature x).
Definition set_BOM_Vulnerabilities (v : ptr (slice (Vulnerability))) (x : BOM) : BOM :=
  mkBOM (BOM_XMLName x) (BOM_XMLNS x) (BOM_JSONSchema x) (BOM_BOMFormat x) (BOM_SpecVersion x) (BOM_SerialNumber x) (BOM_Version x) (BOM_Metadata x) (BOM_Components x) (BOM_Services x) (BOM_ExternalReferences x) (BOM_Dependencies x) (BOM_Compositions x) (BOM_Properties x) v (BOM_Annotations x) (BOM_Formulation x) (BOM_Declarations x) (BOM_Definitions x) (BOM_Citations x) (BOM_Signature x).
Definition set_BOM_Annotations (v : ptr (slice (Annotation))) (x : BOM) : BOM :=
  mkBOM (BOM_XMLName x) (BOM_XMLNS x) (BOM_JSONSchema x) (BOM_BOMFormat x) (BOM_SpecVersion x) (BOM_SerialNumber x) (BOM_Version x) (BOM_Metadata x) (BOM_Components x) (BOM_Services x) (BOM_ExternalReferences x) (BOM_Dependencies x) (BOM_Compositions x) (BOM_Properties x) (BOM_Vulnerabilities x) v (BOM_Formulation x) (BOM_Declarations x) (BOM_Definitions x) (BOM_Citations x) (BOM_Signature x).
Definition set_BOM_Formulation (v : ptr (slice (Formula))) (x : BOM) : BOM :=
  mkBOM (BOM_XMLName x) (BOM_XMLNS x) (BOM_JSONSchema x) (BOM_BOMFormat x) (BOM_SpecVersion x) (BOM_SerialNumber x) (BOM_Version x) (BOM_Metadata x) (BOM_Components x) (BOM_Services x) (BOM_ExternalReferences x) (BOM_Dependencies x) (BOM_Compositions x) (BOM_Properties x) (BOM_Vulnerabilities x) (BOM_Annotations x) v (BOM_Declarations x) (BOM_Definitions x) (BOM_Citations x) (BOM_Signature x).
Definition set_BOM_Declarations (v : ptr (Declarations)) (x : BOM) : BOM :=
  mkBOM (BOM_XMLName x) (BOM_XMLNS x) (BOM_JSONSchema x) (BOM_BOMFormat x) (BOM_SpecVersion x) (BOM_SerialNumber x) (BOM_Version x) (BOM_Metadata x) (BOM_Components x) (BOM_Services x) (BOM_ExternalReferences x) (BOM_Dependencies x) (BOM_Compositions x) (BOM_Properties x) (BOM_Vulnerabilities x) (BOM_Annotations x) (BOM_Formulation x) v (BOM_Definitions x) (BOM_Citations x) (BOM_Signature x).
Definition set_BOM_Definitions (v : ptr (Definitions)) (x : BOM) : BOM :=
  mkBOM (BOM_XMLName x) (BOM_XMLNS x) (BOM_JSONSchema x) (BOM_BOMFormat x) (BOM_SpecVersion x) (BOM_SerialNumber x) (BOM_Version x) (BOM_Metadata x) (BOM_Components x) (BOM_Services x) (BOM_ExternalReferences x) (BOM_Dependencies x) (BOM_Compositions x) (BOM_Properties x) (BOM_Vulnerabilities x) (BOM_Annotations x) (BOM_Formulation x) (BOM_Declarations x) v (BOM_Citations x) (BOM_Signature x).
Definition set_BOM_Citations (v : ptr (slice (Citation))) (x : BOM) : BOM :=
  mkBOM (BOM_XMLName x) (BOM_XMLNS x) (BOM_JSONSchema x) (BOM_BOMFormat x) (BOM_SpecVersion x) (BOM_SerialNumber x) (BOM_Version x) (BOM_Metadata x) (BOM_Components x) (BOM_Services x) (BOM_ExternalReferences x) (BOM_Dependencies x) (BOM_Compositions x) (BOM_Properties x) (BOM_Vulnerabilities x) (BOM_Annotations x) (BOM_Formulation x) (BOM_Declarations x) (BOM_Definitions x) v (BOM_Signature x).
Definition set_BOM_Signature (v : ptr (JSFSignature)) (x : BOM) : BOM :=
  mkBOM (BOM_XMLName x) (BOM_XMLNS x) (BOM_JSONSchema x) (BOM_BOMFormat x) (BOM_SpecVersion x) (BOM_SerialNumber x) (BOM_Version x) (BOM_Metadata x) (BOM_Components x) (BOM_Services x) (BOM_ExternalReferences x) (BOM_Dependencies x) (BOM_Compositions x) (BOM_Properties x) (BOM_Vulnerabilities x) (BOM_Annotations x) (BOM_Formulation x) (BOM_Declarations x) (BOM_Definitions x) (BOM_Citations x) v.
Definition over_BOM_XMLName (f : XMLName -> XMLName) (x : BOM) : BOM := set_BOM_XMLName (f (BOM_XMLName x)) x.
Definition over_BOM_XMLNS (f : string -> string) (x : BOM) : BOM := set_BOM_XMLNS (f (BOM_XMLNS x)) x.
Definition over_BOM_JSONSchema (f : string -> string) (x : BOM) : BOM := set_BOM_JSONSchema (f (BOM_JSONSchema x)) x.
Definition over_BOM_BOMFormat (f : string -> string) (x : BOM) : BOM := set_BOM_BOMFormat (f (BOM_BOMFormat x)) x.
Definition over_BOM_SpecVersion (f : SpecVersion -> SpecVersion) (x : BOM) : BOM := set_BOM_SpecVersion (f (BOM_SpecVersion x)) x.
Definition over_BOM_SerialNumber (f : string -> string) (x : BOM) : BOM := set_BOM_SerialNumber (f (BOM_SerialNumber x)) x.
Definition over_BOM_Version (f : Z -> Z) (x : BOM) : BOM := set_BOM_Version (f (BOM_Version x)) x.
Definition over_BOM_Metadata (f : ptr (Metadata) -> ptr (Metadata)) (x : BOM) : BOM := set_BOM_Metadata (f (BOM_Metadata x)) x.
Definition over_BOM_Components (f : ptr (slice (Component)) -> ptr (slice (Component))) (x : BOM) : BOM := set_BOM_Components (f (BOM_Components x)) x.
Definition over_BOM_Services (f : ptr (slice (Service)) -> ptr (slice (Service))) (x : BOM) : BOM := set_BOM_Services (f (BOM_Services x)) x.
Definition over_BOM_ExternalReferences (f : ptr (slice (ExternalReference)) -> ptr (slice (ExternalReference))) (x : BOM) : BOM := set_BOM_ExternalReferences (f (BOM_ExternalReferences x)) x.
Definition over_BOM_Dependencies (f : ptr (slice (Dependency)) -> ptr (slice (Dependency))) (x : BOM) : BOM := set_BOM_Dependencies (f (BOM_Dependencies x)) x.
Definition over_BOM_Compositions (f : ptr (slice (Composition)) -> ptr (slice (Composition))) (x : BOM) : BOM := set_BOM_Compositions (f (BOM_Compositions x)) x.
Definition over_BOM_Properties (f : ptr (slice (Property)) -> ptr (slice (Property))) (x : BOM) : BOM := set_BOM_Properties (f (BOM_Properties x)) x.
Definition over_BOM_Vulnerabilities (f : ptr (slice (Vulnerability)) -> ptr (slice (Vulnerability))) (x : BOM) : BOM := set_BOM_Vulnerabilities (f (BOM_Vulnerabilities x)) x.
Definition over_BOM_Annotations (f : ptr (slice (Annotation)) -> ptr (slice (Annotation))) (x : BOM) : BOM := set_BOM_Annotations (f (BOM_Annotations x)) x.
Definition over_BOM_Formulation (f : ptr (slice (Formula)) -> ptr (slice (Formula))) (x : BOM) : BOM := set_BOM_Formulation (f (BOM_Formulation x)) x.
Definition over_BOM_Declarations (f : ptr (Declarations) -> ptr (Declarations)) (x : BOM) : BOM := set_BOM_Declarations (f (BOM_Declarations x)) x.
Definition over_BOM_Definitions (f : ptr (Definitions) -> ptr (Definitions)) (x : BOM) : BOM := set_BOM_Definitions (f (BOM_Definitions x)) x.
Definition over_BOM_Citations (f : ptr (slice (Citation)) -> ptr (slice (Citation))) (x : BOM) : BOM := set_BOM_Citations (f (BOM_Citations x)) x.
Definition over_BOM_Signature (f : ptr (JSFSignature) -> ptr (JSFSignature)) (x : BOM) : BOM := set_BOM_Signature (f (BOM_Signature x)) x.
Definition zero_BOM : BOM := mkBOM (mkXMLName "" "") ("") ("") ("") (0%Z) ("") (0%Z) (None) (None) (None) (None) (None) (None) (None) (None) (None) (None) (None) (None) (None) (None).

