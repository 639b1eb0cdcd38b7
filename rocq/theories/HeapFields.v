(** GENERATED by tools/gen_heapfields.py: where the fields that HeapModel.v touches are. *)
From Verif Require Import Base Types Univ TypeTable Reify HeapModel HeapLogic.
Local Open Scope string_scope.
Ltac is_field_tac o s := intros x; split; [|unfold o, s; split; [let f0 := fresh in let H := fresh in intros f0 H; rewrite H; destruct x; reflexivity|reflexivity]];
  destruct x; eexists; split; [reflexivity|split; [reflexivity|intros; reflexivity]].

Lemma at_Annotation_BOMRef : is_field reify_Annotation (ix fields_Annotation "BOMRef") (VStr) Annotation_BOMRef over_Annotation_BOMRef.
Proof. is_field_tac @over_Annotation_BOMRef @set_Annotation_BOMRef. Qed.
Lemma at_Annotation_Annotator : is_field reify_Annotation (ix fields_Annotation "Annotator") (vptr (reify_Annotator)) Annotation_Annotator over_Annotation_Annotator.
Proof. is_field_tac @over_Annotation_Annotator @set_Annotation_Annotator. Qed.
Lemma at_Annotation_Text : is_field reify_Annotation (ix fields_Annotation "Text") (VStr) Annotation_Text over_Annotation_Text.
Proof. is_field_tac @over_Annotation_Text @set_Annotation_Text. Qed.
Lemma at_Annotator_Organization : is_field reify_Annotator (ix fields_Annotator "Organization") (vptr (reify_OrganizationalEntity)) Annotator_Organization over_Annotator_Organization.
Proof. is_field_tac @over_Annotator_Organization @set_Annotator_Organization. Qed.
Lemma at_Annotator_Component : is_field reify_Annotator (ix fields_Annotator "Component") (vptr (reify_Component)) Annotator_Component over_Annotator_Component.
Proof. is_field_tac @over_Annotator_Component @set_Annotator_Component. Qed.
Lemma at_Annotator_Service : is_field reify_Annotator (ix fields_Annotator "Service") (vptr (reify_Service)) Annotator_Service over_Annotator_Service.
Proof. is_field_tac @over_Annotator_Service @set_Annotator_Service. Qed.
Lemma at_BOM_XMLNS : is_field reify_BOM (ix fields_BOM "XMLNS") (VStr) BOM_XMLNS over_BOM_XMLNS.
Proof. is_field_tac @over_BOM_XMLNS @set_BOM_XMLNS. Qed.
Lemma at_BOM_JSONSchema : is_field reify_BOM (ix fields_BOM "JSONSchema") (VStr) BOM_JSONSchema over_BOM_JSONSchema.
Proof. is_field_tac @over_BOM_JSONSchema @set_BOM_JSONSchema. Qed.
Lemma at_BOM_SpecVersion : is_field reify_BOM (ix fields_BOM "SpecVersion") (VInt) BOM_SpecVersion over_BOM_SpecVersion.
Proof. is_field_tac @over_BOM_SpecVersion @set_BOM_SpecVersion. Qed.
Lemma at_BOM_SerialNumber : is_field reify_BOM (ix fields_BOM "SerialNumber") (VStr) BOM_SerialNumber over_BOM_SerialNumber.
Proof. is_field_tac @over_BOM_SerialNumber @set_BOM_SerialNumber. Qed.
Lemma at_BOM_Version : is_field reify_BOM (ix fields_BOM "Version") (VInt) BOM_Version over_BOM_Version.
Proof. is_field_tac @over_BOM_Version @set_BOM_Version. Qed.
Lemma at_BOM_Metadata : is_field reify_BOM (ix fields_BOM "Metadata") (vptr (reify_Metadata)) BOM_Metadata over_BOM_Metadata.
Proof. is_field_tac @over_BOM_Metadata @set_BOM_Metadata. Qed.
Lemma at_BOM_Components : is_field reify_BOM (ix fields_BOM "Components") (vptr (vslice (reify_Component))) BOM_Components over_BOM_Components.
Proof. is_field_tac @over_BOM_Components @set_BOM_Components. Qed.
Lemma at_BOM_Services : is_field reify_BOM (ix fields_BOM "Services") (vptr (vslice (reify_Service))) BOM_Services over_BOM_Services.
Proof. is_field_tac @over_BOM_Services @set_BOM_Services. Qed.
Lemma at_BOM_ExternalReferences : is_field reify_BOM (ix fields_BOM "ExternalReferences") (vptr (vslice (reify_ExternalReference))) BOM_ExternalReferences over_BOM_ExternalReferences.
Proof. is_field_tac @over_BOM_ExternalReferences @set_BOM_ExternalReferences. Qed.
Lemma at_BOM_Dependencies : is_field reify_BOM (ix fields_BOM "Dependencies") (vptr (vslice (reify_Dependency))) BOM_Dependencies over_BOM_Dependencies.
Proof. is_field_tac @over_BOM_Dependencies @set_BOM_Dependencies. Qed.
Lemma at_BOM_Compositions : is_field reify_BOM (ix fields_BOM "Compositions") (vptr (vslice (reify_Composition))) BOM_Compositions over_BOM_Compositions.
Proof. is_field_tac @over_BOM_Compositions @set_BOM_Compositions. Qed.
Lemma at_BOM_Properties : is_field reify_BOM (ix fields_BOM "Properties") (vptr (vslice (reify_Property))) BOM_Properties over_BOM_Properties.
Proof. is_field_tac @over_BOM_Properties @set_BOM_Properties. Qed.
Lemma at_BOM_Vulnerabilities : is_field reify_BOM (ix fields_BOM "Vulnerabilities") (vptr (vslice (reify_Vulnerability))) BOM_Vulnerabilities over_BOM_Vulnerabilities.
Proof. is_field_tac @over_BOM_Vulnerabilities @set_BOM_Vulnerabilities. Qed.
Lemma at_BOM_Annotations : is_field reify_BOM (ix fields_BOM "Annotations") (vptr (vslice (reify_Annotation))) BOM_Annotations over_BOM_Annotations.
Proof. is_field_tac @over_BOM_Annotations @set_BOM_Annotations. Qed.
Lemma at_BOM_Formulation : is_field reify_BOM (ix fields_BOM "Formulation") (vptr (vslice (reify_Formula))) BOM_Formulation over_BOM_Formulation.
Proof. is_field_tac @over_BOM_Formulation @set_BOM_Formulation. Qed.
Lemma at_BOM_Declarations : is_field reify_BOM (ix fields_BOM "Declarations") (vptr (reify_Declarations)) BOM_Declarations over_BOM_Declarations.
Proof. is_field_tac @over_BOM_Declarations @set_BOM_Declarations. Qed.
Lemma at_BOM_Definitions : is_field reify_BOM (ix fields_BOM "Definitions") (vptr (reify_Definitions)) BOM_Definitions over_BOM_Definitions.
Proof. is_field_tac @over_BOM_Definitions @set_BOM_Definitions. Qed.
Lemma at_BOM_Citations : is_field reify_BOM (ix fields_BOM "Citations") (vptr (vslice (reify_Citation))) BOM_Citations over_BOM_Citations.
Proof. is_field_tac @over_BOM_Citations @set_BOM_Citations. Qed.
Lemma at_CertificateProperties_SerialNumber : is_field reify_CertificateProperties (ix fields_CertificateProperties "SerialNumber") (VStr) CertificateProperties_SerialNumber over_CertificateProperties_SerialNumber.
Proof. is_field_tac @over_CertificateProperties_SerialNumber @set_CertificateProperties_SerialNumber. Qed.
Lemma at_CertificateProperties_CertificateFileExtension : is_field reify_CertificateProperties (ix fields_CertificateProperties "CertificateFileExtension") (VStr) CertificateProperties_CertificateFileExtension over_CertificateProperties_CertificateFileExtension.
Proof. is_field_tac @over_CertificateProperties_CertificateFileExtension @set_CertificateProperties_CertificateFileExtension. Qed.
Lemma at_CertificateProperties_Fingerprint : is_field reify_CertificateProperties (ix fields_CertificateProperties "Fingerprint") (vptr (reify_Hash)) CertificateProperties_Fingerprint over_CertificateProperties_Fingerprint.
Proof. is_field_tac @over_CertificateProperties_Fingerprint @set_CertificateProperties_Fingerprint. Qed.
Lemma at_CertificateProperties_CertificateState : is_field reify_CertificateProperties (ix fields_CertificateProperties "CertificateState") (vptr (vslice (reify_CertificateState))) CertificateProperties_CertificateState over_CertificateProperties_CertificateState.
Proof. is_field_tac @over_CertificateProperties_CertificateState @set_CertificateProperties_CertificateState. Qed.
Lemma at_CertificateProperties_CertificateExtensions : is_field reify_CertificateProperties (ix fields_CertificateProperties "CertificateExtensions") (vptr (vslice (reify_CertificateExtension))) CertificateProperties_CertificateExtensions over_CertificateProperties_CertificateExtensions.
Proof. is_field_tac @over_CertificateProperties_CertificateExtensions @set_CertificateProperties_CertificateExtensions. Qed.
Lemma at_CertificateProperties_RelatedCryptographicAssets : is_field reify_CertificateProperties (ix fields_CertificateProperties "RelatedCryptographicAssets") (vptr (vslice (reify_RelatedCryptographicAsset))) CertificateProperties_RelatedCryptographicAssets over_CertificateProperties_RelatedCryptographicAssets.
Proof. is_field_tac @over_CertificateProperties_RelatedCryptographicAssets @set_CertificateProperties_RelatedCryptographicAssets. Qed.
Lemma at_CertificateProperties_CreationDate : is_field reify_CertificateProperties (ix fields_CertificateProperties "CreationDate") (VStr) CertificateProperties_CreationDate over_CertificateProperties_CreationDate.
Proof. is_field_tac @over_CertificateProperties_CreationDate @set_CertificateProperties_CreationDate. Qed.
Lemma at_CertificateProperties_ActivationDate : is_field reify_CertificateProperties (ix fields_CertificateProperties "ActivationDate") (VStr) CertificateProperties_ActivationDate over_CertificateProperties_ActivationDate.
Proof. is_field_tac @over_CertificateProperties_ActivationDate @set_CertificateProperties_ActivationDate. Qed.
Lemma at_CertificateProperties_DeactivationDate : is_field reify_CertificateProperties (ix fields_CertificateProperties "DeactivationDate") (VStr) CertificateProperties_DeactivationDate over_CertificateProperties_DeactivationDate.
Proof. is_field_tac @over_CertificateProperties_DeactivationDate @set_CertificateProperties_DeactivationDate. Qed.
Lemma at_CertificateProperties_RevocationDate : is_field reify_CertificateProperties (ix fields_CertificateProperties "RevocationDate") (VStr) CertificateProperties_RevocationDate over_CertificateProperties_RevocationDate.
Proof. is_field_tac @over_CertificateProperties_RevocationDate @set_CertificateProperties_RevocationDate. Qed.
Lemma at_CertificateProperties_DestructionDate : is_field reify_CertificateProperties (ix fields_CertificateProperties "DestructionDate") (VStr) CertificateProperties_DestructionDate over_CertificateProperties_DestructionDate.
Proof. is_field_tac @over_CertificateProperties_DestructionDate @set_CertificateProperties_DestructionDate. Qed.
Lemma at_CipherSuite_Name : is_field reify_CipherSuite (ix fields_CipherSuite "Name") (VStr) CipherSuite_Name over_CipherSuite_Name.
Proof. is_field_tac @over_CipherSuite_Name @set_CipherSuite_Name. Qed.
Lemma at_CipherSuite_TLSGroups : is_field reify_CipherSuite (ix fields_CipherSuite "TLSGroups") (vptr (vslice (VStr))) CipherSuite_TLSGroups over_CipherSuite_TLSGroups.
Proof. is_field_tac @over_CipherSuite_TLSGroups @set_CipherSuite_TLSGroups. Qed.
Lemma at_CipherSuite_TLSSignatureSchemes : is_field reify_CipherSuite (ix fields_CipherSuite "TLSSignatureSchemes") (vptr (vslice (VStr))) CipherSuite_TLSSignatureSchemes over_CipherSuite_TLSSignatureSchemes.
Proof. is_field_tac @over_CipherSuite_TLSSignatureSchemes @set_CipherSuite_TLSSignatureSchemes. Qed.
Lemma at_Component_BOMRef : is_field reify_Component (ix fields_Component "BOMRef") (VStr) Component_BOMRef over_Component_BOMRef.
Proof. is_field_tac @over_Component_BOMRef @set_Component_BOMRef. Qed.
Lemma at_Component_MIMEType : is_field reify_Component (ix fields_Component "MIMEType") (VStr) Component_MIMEType over_Component_MIMEType.
Proof. is_field_tac @over_Component_MIMEType @set_Component_MIMEType. Qed.
Lemma at_Component_Type : is_field reify_Component (ix fields_Component "Type") (VStr) Component_Type over_Component_Type.
Proof. is_field_tac @over_Component_Type @set_Component_Type. Qed.
Lemma at_Component_Supplier : is_field reify_Component (ix fields_Component "Supplier") (vptr (reify_OrganizationalEntity)) Component_Supplier over_Component_Supplier.
Proof. is_field_tac @over_Component_Supplier @set_Component_Supplier. Qed.
Lemma at_Component_Manufacturer : is_field reify_Component (ix fields_Component "Manufacturer") (vptr (reify_OrganizationalEntity)) Component_Manufacturer over_Component_Manufacturer.
Proof. is_field_tac @over_Component_Manufacturer @set_Component_Manufacturer. Qed.
Lemma at_Component_Author : is_field reify_Component (ix fields_Component "Author") (VStr) Component_Author over_Component_Author.
Proof. is_field_tac @over_Component_Author @set_Component_Author. Qed.
Lemma at_Component_Authors : is_field reify_Component (ix fields_Component "Authors") (vptr (vslice (reify_OrganizationalContact))) Component_Authors over_Component_Authors.
Proof. is_field_tac @over_Component_Authors @set_Component_Authors. Qed.
Lemma at_Component_Name : is_field reify_Component (ix fields_Component "Name") (VStr) Component_Name over_Component_Name.
Proof. is_field_tac @over_Component_Name @set_Component_Name. Qed.
Lemma at_Component_Version : is_field reify_Component (ix fields_Component "Version") (VStr) Component_Version over_Component_Version.
Proof. is_field_tac @over_Component_Version @set_Component_Version. Qed.
Lemma at_Component_Description : is_field reify_Component (ix fields_Component "Description") (VStr) Component_Description over_Component_Description.
Proof. is_field_tac @over_Component_Description @set_Component_Description. Qed.
Lemma at_Component_Scope : is_field reify_Component (ix fields_Component "Scope") (VStr) Component_Scope over_Component_Scope.
Proof. is_field_tac @over_Component_Scope @set_Component_Scope. Qed.
Lemma at_Component_Hashes : is_field reify_Component (ix fields_Component "Hashes") (vptr (vslice (reify_Hash))) Component_Hashes over_Component_Hashes.
Proof. is_field_tac @over_Component_Hashes @set_Component_Hashes. Qed.
Lemma at_Component_Licenses : is_field reify_Component (ix fields_Component "Licenses") (vptr (vslice (reify_LicenseChoice))) Component_Licenses over_Component_Licenses.
Proof. is_field_tac @over_Component_Licenses @set_Component_Licenses. Qed.
Lemma at_Component_OmniborID : is_field reify_Component (ix fields_Component "OmniborID") (vptr (vslice (VStr))) Component_OmniborID over_Component_OmniborID.
Proof. is_field_tac @over_Component_OmniborID @set_Component_OmniborID. Qed.
Lemma at_Component_SWHID : is_field reify_Component (ix fields_Component "SWHID") (vptr (vslice (VStr))) Component_SWHID over_Component_SWHID.
Proof. is_field_tac @over_Component_SWHID @set_Component_SWHID. Qed.
Lemma at_Component_SWID : is_field reify_Component (ix fields_Component "SWID") (vptr (reify_SWID)) Component_SWID over_Component_SWID.
Proof. is_field_tac @over_Component_SWID @set_Component_SWID. Qed.
Lemma at_Component_Modified : is_field reify_Component (ix fields_Component "Modified") (vptr (VBool)) Component_Modified over_Component_Modified.
Proof. is_field_tac @over_Component_Modified @set_Component_Modified. Qed.
Lemma at_Component_Pedigree : is_field reify_Component (ix fields_Component "Pedigree") (vptr (reify_Pedigree_ reify_Component)) Component_Pedigree over_Component_Pedigree.
Proof. is_field_tac @over_Component_Pedigree @set_Component_Pedigree. Qed.
Lemma at_Component_ExternalReferences : is_field reify_Component (ix fields_Component "ExternalReferences") (vptr (vslice (reify_ExternalReference))) Component_ExternalReferences over_Component_ExternalReferences.
Proof. is_field_tac @over_Component_ExternalReferences @set_Component_ExternalReferences. Qed.
Lemma at_Component_Properties : is_field reify_Component (ix fields_Component "Properties") (vptr (vslice (reify_Property))) Component_Properties over_Component_Properties.
Proof. is_field_tac @over_Component_Properties @set_Component_Properties. Qed.
Lemma at_Component_Components : is_field reify_Component (ix fields_Component "Components") (vptr (vslice (reify_Component))) Component_Components over_Component_Components.
Proof. is_field_tac @over_Component_Components @set_Component_Components. Qed.
Lemma at_Component_Evidence : is_field reify_Component (ix fields_Component "Evidence") (vptr (reify_Evidence)) Component_Evidence over_Component_Evidence.
Proof. is_field_tac @over_Component_Evidence @set_Component_Evidence. Qed.
Lemma at_Component_ReleaseNotes : is_field reify_Component (ix fields_Component "ReleaseNotes") (vptr (reify_ReleaseNotes)) Component_ReleaseNotes over_Component_ReleaseNotes.
Proof. is_field_tac @over_Component_ReleaseNotes @set_Component_ReleaseNotes. Qed.
Lemma at_Component_ModelCard : is_field reify_Component (ix fields_Component "ModelCard") (vptr (reify_MLModelCard)) Component_ModelCard over_Component_ModelCard.
Proof. is_field_tac @over_Component_ModelCard @set_Component_ModelCard. Qed.
Lemma at_Component_Data : is_field reify_Component (ix fields_Component "Data") (vptr (vslice (reify_ComponentData))) Component_Data over_Component_Data.
Proof. is_field_tac @over_Component_Data @set_Component_Data. Qed.
Lemma at_Component_CryptoProperties : is_field reify_Component (ix fields_Component "CryptoProperties") (vptr (reify_CryptoProperties)) Component_CryptoProperties over_Component_CryptoProperties.
Proof. is_field_tac @over_Component_CryptoProperties @set_Component_CryptoProperties. Qed.
Lemma at_Component_Tags : is_field reify_Component (ix fields_Component "Tags") (vptr (vslice (VStr))) Component_Tags over_Component_Tags.
Proof. is_field_tac @over_Component_Tags @set_Component_Tags. Qed.
Lemma at_Component_IsExternal : is_field reify_Component (ix fields_Component "IsExternal") (vptr (VBool)) Component_IsExternal over_Component_IsExternal.
Proof. is_field_tac @over_Component_IsExternal @set_Component_IsExternal. Qed.
Lemma at_Component_PatentAssertions : is_field reify_Component (ix fields_Component "PatentAssertions") (vptr (vslice (reify_PatentAssertion))) Component_PatentAssertions over_Component_PatentAssertions.
Proof. is_field_tac @over_Component_PatentAssertions @set_Component_PatentAssertions. Qed.
Lemma at_Component_VersionRange : is_field reify_Component (ix fields_Component "VersionRange") (VStr) Component_VersionRange over_Component_VersionRange.
Proof. is_field_tac @over_Component_VersionRange @set_Component_VersionRange. Qed.
Lemma at_Composition_BOMRef : is_field reify_Composition (ix fields_Composition "BOMRef") (VStr) Composition_BOMRef over_Composition_BOMRef.
Proof. is_field_tac @over_Composition_BOMRef @set_Composition_BOMRef. Qed.
Lemma at_Composition_Aggregate : is_field reify_Composition (ix fields_Composition "Aggregate") (VStr) Composition_Aggregate over_Composition_Aggregate.
Proof. is_field_tac @over_Composition_Aggregate @set_Composition_Aggregate. Qed.
Lemma at_Composition_Dependencies : is_field reify_Composition (ix fields_Composition "Dependencies") (vptr (vslice (VStr))) Composition_Dependencies over_Composition_Dependencies.
Proof. is_field_tac @over_Composition_Dependencies @set_Composition_Dependencies. Qed.
Lemma at_Composition_Vulnerabilities : is_field reify_Composition (ix fields_Composition "Vulnerabilities") (vptr (vslice (VStr))) Composition_Vulnerabilities over_Composition_Vulnerabilities.
Proof. is_field_tac @over_Composition_Vulnerabilities @set_Composition_Vulnerabilities. Qed.
Lemma at_Credits_Organizations : is_field reify_Credits (ix fields_Credits "Organizations") (vptr (vslice (reify_OrganizationalEntity))) Credits_Organizations over_Credits_Organizations.
Proof. is_field_tac @over_Credits_Organizations @set_Credits_Organizations. Qed.
Lemma at_Credits_Individuals : is_field reify_Credits (ix fields_Credits "Individuals") (vptr (vslice (reify_OrganizationalContact))) Credits_Individuals over_Credits_Individuals.
Proof. is_field_tac @over_Credits_Individuals @set_Credits_Individuals. Qed.
Lemma at_CryptoAlgorithmProperties_Primitive : is_field reify_CryptoAlgorithmProperties (ix fields_CryptoAlgorithmProperties "Primitive") (VStr) CryptoAlgorithmProperties_Primitive over_CryptoAlgorithmProperties_Primitive.
Proof. is_field_tac @over_CryptoAlgorithmProperties_Primitive @set_CryptoAlgorithmProperties_Primitive. Qed.
Lemma at_CryptoAlgorithmProperties_AlgorithmFamily : is_field reify_CryptoAlgorithmProperties (ix fields_CryptoAlgorithmProperties "AlgorithmFamily") (VStr) CryptoAlgorithmProperties_AlgorithmFamily over_CryptoAlgorithmProperties_AlgorithmFamily.
Proof. is_field_tac @over_CryptoAlgorithmProperties_AlgorithmFamily @set_CryptoAlgorithmProperties_AlgorithmFamily. Qed.
Lemma at_CryptoAlgorithmProperties_EllipticCurve : is_field reify_CryptoAlgorithmProperties (ix fields_CryptoAlgorithmProperties "EllipticCurve") (VStr) CryptoAlgorithmProperties_EllipticCurve over_CryptoAlgorithmProperties_EllipticCurve.
Proof. is_field_tac @over_CryptoAlgorithmProperties_EllipticCurve @set_CryptoAlgorithmProperties_EllipticCurve. Qed.
Lemma at_CryptoProperties_AlgorithmProperties : is_field reify_CryptoProperties (ix fields_CryptoProperties "AlgorithmProperties") (vptr (reify_CryptoAlgorithmProperties)) CryptoProperties_AlgorithmProperties over_CryptoProperties_AlgorithmProperties.
Proof. is_field_tac @over_CryptoProperties_AlgorithmProperties @set_CryptoProperties_AlgorithmProperties. Qed.
Lemma at_CryptoProperties_CertificateProperties : is_field reify_CryptoProperties (ix fields_CryptoProperties "CertificateProperties") (vptr (reify_CertificateProperties)) CryptoProperties_CertificateProperties over_CryptoProperties_CertificateProperties.
Proof. is_field_tac @over_CryptoProperties_CertificateProperties @set_CryptoProperties_CertificateProperties. Qed.
Lemma at_CryptoProperties_RelatedCryptoMaterialProperties : is_field reify_CryptoProperties (ix fields_CryptoProperties "RelatedCryptoMaterialProperties") (vptr (reify_RelatedCryptoMaterialProperties)) CryptoProperties_RelatedCryptoMaterialProperties over_CryptoProperties_RelatedCryptoMaterialProperties.
Proof. is_field_tac @over_CryptoProperties_RelatedCryptoMaterialProperties @set_CryptoProperties_RelatedCryptoMaterialProperties. Qed.
Lemma at_CryptoProperties_ProtocolProperties : is_field reify_CryptoProperties (ix fields_CryptoProperties "ProtocolProperties") (vptr (reify_CryptoProtocolProperties)) CryptoProperties_ProtocolProperties over_CryptoProperties_ProtocolProperties.
Proof. is_field_tac @over_CryptoProperties_ProtocolProperties @set_CryptoProperties_ProtocolProperties. Qed.
Lemma at_CryptoProtocolProperties_Type : is_field reify_CryptoProtocolProperties (ix fields_CryptoProtocolProperties "Type") (VStr) CryptoProtocolProperties_Type over_CryptoProtocolProperties_Type.
Proof. is_field_tac @over_CryptoProtocolProperties_Type @set_CryptoProtocolProperties_Type. Qed.
Lemma at_CryptoProtocolProperties_Version : is_field reify_CryptoProtocolProperties (ix fields_CryptoProtocolProperties "Version") (VStr) CryptoProtocolProperties_Version over_CryptoProtocolProperties_Version.
Proof. is_field_tac @over_CryptoProtocolProperties_Version @set_CryptoProtocolProperties_Version. Qed.
Lemma at_CryptoProtocolProperties_CipherSuites : is_field reify_CryptoProtocolProperties (ix fields_CryptoProtocolProperties "CipherSuites") (vptr (vslice (reify_CipherSuite))) CryptoProtocolProperties_CipherSuites over_CryptoProtocolProperties_CipherSuites.
Proof. is_field_tac @over_CryptoProtocolProperties_CipherSuites @set_CryptoProtocolProperties_CipherSuites. Qed.
Lemma at_CryptoProtocolProperties_RelatedCryptographicAssets : is_field reify_CryptoProtocolProperties (ix fields_CryptoProtocolProperties "RelatedCryptographicAssets") (vptr (vslice (reify_RelatedCryptographicAsset))) CryptoProtocolProperties_RelatedCryptographicAssets over_CryptoProtocolProperties_RelatedCryptographicAssets.
Proof. is_field_tac @over_CryptoProtocolProperties_RelatedCryptographicAssets @set_CryptoProtocolProperties_RelatedCryptographicAssets. Qed.
Lemma at_DataClassification_Name : is_field reify_DataClassification (ix fields_DataClassification "Name") (VStr) DataClassification_Name over_DataClassification_Name.
Proof. is_field_tac @over_DataClassification_Name @set_DataClassification_Name. Qed.
Lemma at_DataClassification_Description : is_field reify_DataClassification (ix fields_DataClassification "Description") (VStr) DataClassification_Description over_DataClassification_Description.
Proof. is_field_tac @over_DataClassification_Description @set_DataClassification_Description. Qed.
Lemma at_DataClassification_Governance : is_field reify_DataClassification (ix fields_DataClassification "Governance") (vptr (reify_DataGovernance)) DataClassification_Governance over_DataClassification_Governance.
Proof. is_field_tac @over_DataClassification_Governance @set_DataClassification_Governance. Qed.
Lemma at_DataClassification_Source : is_field reify_DataClassification (ix fields_DataClassification "Source") (vptr (vslice (VStr))) DataClassification_Source over_DataClassification_Source.
Proof. is_field_tac @over_DataClassification_Source @set_DataClassification_Source. Qed.
Lemma at_DataClassification_Destination : is_field reify_DataClassification (ix fields_DataClassification "Destination") (vptr (vslice (VStr))) DataClassification_Destination over_DataClassification_Destination.
Proof. is_field_tac @over_DataClassification_Destination @set_DataClassification_Destination. Qed.
Lemma at_Definitions_Patents : is_field reify_Definitions (ix fields_Definitions "Patents") (vptr (vslice (reify_PatentChoice))) Definitions_Patents over_Definitions_Patents.
Proof. is_field_tac @over_Definitions_Patents @set_Definitions_Patents. Qed.
Lemma at_Dependency_Dependencies : is_field reify_Dependency (ix fields_Dependency "Dependencies") (vptr (vslice (VStr))) Dependency_Dependencies over_Dependency_Dependencies.
Proof. is_field_tac @over_Dependency_Dependencies @set_Dependency_Dependencies. Qed.
Lemma at_Dependency_Provides : is_field reify_Dependency (ix fields_Dependency "Provides") (vptr (vslice (VStr))) Dependency_Provides over_Dependency_Provides.
Proof. is_field_tac @over_Dependency_Provides @set_Dependency_Provides. Qed.
Lemma at_Evidence_Identity : is_field reify_Evidence (ix fields_Evidence "Identity") (vptr (reify_EvidenceIdentityChoice)) Evidence_Identity over_Evidence_Identity.
Proof. is_field_tac @over_Evidence_Identity @set_Evidence_Identity. Qed.
Lemma at_Evidence_Occurrences : is_field reify_Evidence (ix fields_Evidence "Occurrences") (vptr (vslice (reify_EvidenceOccurrence))) Evidence_Occurrences over_Evidence_Occurrences.
Proof. is_field_tac @over_Evidence_Occurrences @set_Evidence_Occurrences. Qed.
Lemma at_Evidence_Callstack : is_field reify_Evidence (ix fields_Evidence "Callstack") (vptr (reify_Callstack)) Evidence_Callstack over_Evidence_Callstack.
Proof. is_field_tac @over_Evidence_Callstack @set_Evidence_Callstack. Qed.
Lemma at_Evidence_Licenses : is_field reify_Evidence (ix fields_Evidence "Licenses") (vptr (vslice (reify_LicenseChoice))) Evidence_Licenses over_Evidence_Licenses.
Proof. is_field_tac @over_Evidence_Licenses @set_Evidence_Licenses. Qed.
Lemma at_EvidenceIdentity_ConcludedValue : is_field reify_EvidenceIdentity (ix fields_EvidenceIdentity "ConcludedValue") (VStr) EvidenceIdentity_ConcludedValue over_EvidenceIdentity_ConcludedValue.
Proof. is_field_tac @over_EvidenceIdentity_ConcludedValue @set_EvidenceIdentity_ConcludedValue. Qed.
Lemma at_EvidenceIdentity_Tools : is_field reify_EvidenceIdentity (ix fields_EvidenceIdentity "Tools") (vptr (vslice (VStr))) EvidenceIdentity_Tools over_EvidenceIdentity_Tools.
Proof. is_field_tac @over_EvidenceIdentity_Tools @set_EvidenceIdentity_Tools. Qed.
Lemma at_EvidenceIdentityChoice_Identity : is_field reify_EvidenceIdentityChoice (ix fields_EvidenceIdentityChoice "Identity") (vptr (reify_EvidenceIdentity)) EvidenceIdentityChoice_Identity over_EvidenceIdentityChoice_Identity.
Proof. is_field_tac @over_EvidenceIdentityChoice_Identity @set_EvidenceIdentityChoice_Identity. Qed.
Lemma at_EvidenceIdentityChoice_Identities : is_field reify_EvidenceIdentityChoice (ix fields_EvidenceIdentityChoice "Identities") (vptr (vslice (reify_EvidenceIdentity))) EvidenceIdentityChoice_Identities over_EvidenceIdentityChoice_Identities.
Proof. is_field_tac @over_EvidenceIdentityChoice_Identities @set_EvidenceIdentityChoice_Identities. Qed.
Lemma at_EvidenceOccurrence_BOMRef : is_field reify_EvidenceOccurrence (ix fields_EvidenceOccurrence "BOMRef") (VStr) EvidenceOccurrence_BOMRef over_EvidenceOccurrence_BOMRef.
Proof. is_field_tac @over_EvidenceOccurrence_BOMRef @set_EvidenceOccurrence_BOMRef. Qed.
Lemma at_EvidenceOccurrence_Line : is_field reify_EvidenceOccurrence (ix fields_EvidenceOccurrence "Line") (vptr (VInt)) EvidenceOccurrence_Line over_EvidenceOccurrence_Line.
Proof. is_field_tac @over_EvidenceOccurrence_Line @set_EvidenceOccurrence_Line. Qed.
Lemma at_EvidenceOccurrence_Offset : is_field reify_EvidenceOccurrence (ix fields_EvidenceOccurrence "Offset") (vptr (VInt)) EvidenceOccurrence_Offset over_EvidenceOccurrence_Offset.
Proof. is_field_tac @over_EvidenceOccurrence_Offset @set_EvidenceOccurrence_Offset. Qed.
Lemma at_EvidenceOccurrence_Symbol : is_field reify_EvidenceOccurrence (ix fields_EvidenceOccurrence "Symbol") (VStr) EvidenceOccurrence_Symbol over_EvidenceOccurrence_Symbol.
Proof. is_field_tac @over_EvidenceOccurrence_Symbol @set_EvidenceOccurrence_Symbol. Qed.
Lemma at_EvidenceOccurrence_AdditionalContext : is_field reify_EvidenceOccurrence (ix fields_EvidenceOccurrence "AdditionalContext") (VStr) EvidenceOccurrence_AdditionalContext over_EvidenceOccurrence_AdditionalContext.
Proof. is_field_tac @over_EvidenceOccurrence_AdditionalContext @set_EvidenceOccurrence_AdditionalContext. Qed.
Lemma at_ExternalReference_URL : is_field reify_ExternalReference (ix fields_ExternalReference "URL") (VStr) ExternalReference_URL over_ExternalReference_URL.
Proof. is_field_tac @over_ExternalReference_URL @set_ExternalReference_URL. Qed.
Lemma at_ExternalReference_Hashes : is_field reify_ExternalReference (ix fields_ExternalReference "Hashes") (vptr (vslice (reify_Hash))) ExternalReference_Hashes over_ExternalReference_Hashes.
Proof. is_field_tac @over_ExternalReference_Hashes @set_ExternalReference_Hashes. Qed.
Lemma at_ExternalReference_Type : is_field reify_ExternalReference (ix fields_ExternalReference "Type") (VStr) ExternalReference_Type over_ExternalReference_Type.
Proof. is_field_tac @over_ExternalReference_Type @set_ExternalReference_Type. Qed.
Lemma at_ExternalReference_Properties : is_field reify_ExternalReference (ix fields_ExternalReference "Properties") (vptr (vslice (reify_Property))) ExternalReference_Properties over_ExternalReference_Properties.
Proof. is_field_tac @over_ExternalReference_Properties @set_ExternalReference_Properties. Qed.
Lemma at_Hash_Algorithm : is_field reify_Hash (ix fields_Hash "Algorithm") (VStr) Hash_Algorithm over_Hash_Algorithm.
Proof. is_field_tac @over_Hash_Algorithm @set_Hash_Algorithm. Qed.
Lemma at_License_BOMRef : is_field reify_License (ix fields_License "BOMRef") (VStr) License_BOMRef over_License_BOMRef.
Proof. is_field_tac @over_License_BOMRef @set_License_BOMRef. Qed.
Lemma at_License_ID : is_field reify_License (ix fields_License "ID") (VStr) License_ID over_License_ID.
Proof. is_field_tac @over_License_ID @set_License_ID. Qed.
Lemma at_License_Name : is_field reify_License (ix fields_License "Name") (VStr) License_Name over_License_Name.
Proof. is_field_tac @over_License_Name @set_License_Name. Qed.
Lemma at_License_Acknowledgement : is_field reify_License (ix fields_License "Acknowledgement") (VStr) License_Acknowledgement over_License_Acknowledgement.
Proof. is_field_tac @over_License_Acknowledgement @set_License_Acknowledgement. Qed.
Lemma at_License_Text : is_field reify_License (ix fields_License "Text") (vptr (reify_AttachedText)) License_Text over_License_Text.
Proof. is_field_tac @over_License_Text @set_License_Text. Qed.
Lemma at_License_URL : is_field reify_License (ix fields_License "URL") (VStr) License_URL over_License_URL.
Proof. is_field_tac @over_License_URL @set_License_URL. Qed.
Lemma at_License_Licensing : is_field reify_License (ix fields_License "Licensing") (vptr (reify_Licensing)) License_Licensing over_License_Licensing.
Proof. is_field_tac @over_License_Licensing @set_License_Licensing. Qed.
Lemma at_License_Properties : is_field reify_License (ix fields_License "Properties") (vptr (vslice (reify_Property))) License_Properties over_License_Properties.
Proof. is_field_tac @over_License_Properties @set_License_Properties. Qed.
Lemma at_LicenseChoice_License : is_field reify_LicenseChoice (ix fields_LicenseChoice "License") (vptr (reify_License)) LicenseChoice_License over_LicenseChoice_License.
Proof. is_field_tac @over_LicenseChoice_License @set_LicenseChoice_License. Qed.
Lemma at_LicenseChoice_Expression : is_field reify_LicenseChoice (ix fields_LicenseChoice "Expression") (VStr) LicenseChoice_Expression over_LicenseChoice_Expression.
Proof. is_field_tac @over_LicenseChoice_Expression @set_LicenseChoice_Expression. Qed.
Lemma at_LicenseChoice_ExpressionDetails : is_field reify_LicenseChoice (ix fields_LicenseChoice "ExpressionDetails") (vptr (vslice (reify_LicenseExpressionDetail))) LicenseChoice_ExpressionDetails over_LicenseChoice_ExpressionDetails.
Proof. is_field_tac @over_LicenseChoice_ExpressionDetails @set_LicenseChoice_ExpressionDetails. Qed.
Lemma at_LicenseChoice_Acknowledgement : is_field reify_LicenseChoice (ix fields_LicenseChoice "Acknowledgement") (vptr (VStr)) LicenseChoice_Acknowledgement over_LicenseChoice_Acknowledgement.
Proof. is_field_tac @over_LicenseChoice_Acknowledgement @set_LicenseChoice_Acknowledgement. Qed.
Lemma at_LicenseChoice_BOMRef : is_field reify_LicenseChoice (ix fields_LicenseChoice "BOMRef") (VStr) LicenseChoice_BOMRef over_LicenseChoice_BOMRef.
Proof. is_field_tac @over_LicenseChoice_BOMRef @set_LicenseChoice_BOMRef. Qed.
Lemma at_LicenseChoice_Licensing : is_field reify_LicenseChoice (ix fields_LicenseChoice "Licensing") (vptr (reify_Licensing)) LicenseChoice_Licensing over_LicenseChoice_Licensing.
Proof. is_field_tac @over_LicenseChoice_Licensing @set_LicenseChoice_Licensing. Qed.
Lemma at_LicenseChoice_Properties : is_field reify_LicenseChoice (ix fields_LicenseChoice "Properties") (vptr (vslice (reify_Property))) LicenseChoice_Properties over_LicenseChoice_Properties.
Proof. is_field_tac @over_LicenseChoice_Properties @set_LicenseChoice_Properties. Qed.
Lemma at_Licensing_Licensor : is_field reify_Licensing (ix fields_Licensing "Licensor") (vptr (reify_OrganizationalEntityOrContact)) Licensing_Licensor over_Licensing_Licensor.
Proof. is_field_tac @over_Licensing_Licensor @set_Licensing_Licensor. Qed.
Lemma at_Licensing_Licensee : is_field reify_Licensing (ix fields_Licensing "Licensee") (vptr (reify_OrganizationalEntityOrContact)) Licensing_Licensee over_Licensing_Licensee.
Proof. is_field_tac @over_Licensing_Licensee @set_Licensing_Licensee. Qed.
Lemma at_Licensing_Purchaser : is_field reify_Licensing (ix fields_Licensing "Purchaser") (vptr (reify_OrganizationalEntityOrContact)) Licensing_Purchaser over_Licensing_Purchaser.
Proof. is_field_tac @over_Licensing_Purchaser @set_Licensing_Purchaser. Qed.
Lemma at_MLModelCard_BOMRef : is_field reify_MLModelCard (ix fields_MLModelCard "BOMRef") (VStr) MLModelCard_BOMRef over_MLModelCard_BOMRef.
Proof. is_field_tac @over_MLModelCard_BOMRef @set_MLModelCard_BOMRef. Qed.
Lemma at_MLModelCard_Considerations : is_field reify_MLModelCard (ix fields_MLModelCard "Considerations") (vptr (reify_MLModelCardConsiderations)) MLModelCard_Considerations over_MLModelCard_Considerations.
Proof. is_field_tac @over_MLModelCard_Considerations @set_MLModelCard_Considerations. Qed.
Lemma at_MLModelCardConsiderations_EnvironmentalConsiderations : is_field reify_MLModelCardConsiderations (ix fields_MLModelCardConsiderations "EnvironmentalConsiderations") (vptr (reify_MLModelCardEnvironmentalConsiderations)) MLModelCardConsiderations_EnvironmentalConsiderations over_MLModelCardConsiderations_EnvironmentalConsiderations.
Proof. is_field_tac @over_MLModelCardConsiderations_EnvironmentalConsiderations @set_MLModelCardConsiderations_EnvironmentalConsiderations. Qed.
Lemma at_Metadata_Lifecycles : is_field reify_Metadata (ix fields_Metadata "Lifecycles") (vptr (vslice (reify_Lifecycle))) Metadata_Lifecycles over_Metadata_Lifecycles.
Proof. is_field_tac @over_Metadata_Lifecycles @set_Metadata_Lifecycles. Qed.
Lemma at_Metadata_Tools : is_field reify_Metadata (ix fields_Metadata "Tools") (vptr (reify_ToolsChoice)) Metadata_Tools over_Metadata_Tools.
Proof. is_field_tac @over_Metadata_Tools @set_Metadata_Tools. Qed.
Lemma at_Metadata_Authors : is_field reify_Metadata (ix fields_Metadata "Authors") (vptr (vslice (reify_OrganizationalContact))) Metadata_Authors over_Metadata_Authors.
Proof. is_field_tac @over_Metadata_Authors @set_Metadata_Authors. Qed.
Lemma at_Metadata_Component : is_field reify_Metadata (ix fields_Metadata "Component") (vptr (reify_Component)) Metadata_Component over_Metadata_Component.
Proof. is_field_tac @over_Metadata_Component @set_Metadata_Component. Qed.
Lemma at_Metadata_Manufacture : is_field reify_Metadata (ix fields_Metadata "Manufacture") (vptr (reify_OrganizationalEntity)) Metadata_Manufacture over_Metadata_Manufacture.
Proof. is_field_tac @over_Metadata_Manufacture @set_Metadata_Manufacture. Qed.
Lemma at_Metadata_Manufacturer : is_field reify_Metadata (ix fields_Metadata "Manufacturer") (vptr (reify_OrganizationalEntity)) Metadata_Manufacturer over_Metadata_Manufacturer.
Proof. is_field_tac @over_Metadata_Manufacturer @set_Metadata_Manufacturer. Qed.
Lemma at_Metadata_Supplier : is_field reify_Metadata (ix fields_Metadata "Supplier") (vptr (reify_OrganizationalEntity)) Metadata_Supplier over_Metadata_Supplier.
Proof. is_field_tac @over_Metadata_Supplier @set_Metadata_Supplier. Qed.
Lemma at_Metadata_Licenses : is_field reify_Metadata (ix fields_Metadata "Licenses") (vptr (vslice (reify_LicenseChoice))) Metadata_Licenses over_Metadata_Licenses.
Proof. is_field_tac @over_Metadata_Licenses @set_Metadata_Licenses. Qed.
Lemma at_Metadata_Properties : is_field reify_Metadata (ix fields_Metadata "Properties") (vptr (vslice (reify_Property))) Metadata_Properties over_Metadata_Properties.
Proof. is_field_tac @over_Metadata_Properties @set_Metadata_Properties. Qed.
Lemma at_Metadata_DistributionConstraints : is_field reify_Metadata (ix fields_Metadata "DistributionConstraints") (vptr (reify_DistributionConstraints)) Metadata_DistributionConstraints over_Metadata_DistributionConstraints.
Proof. is_field_tac @over_Metadata_DistributionConstraints @set_Metadata_DistributionConstraints. Qed.
Lemma at_OrganizationalContact_BOMRef : is_field reify_OrganizationalContact (ix fields_OrganizationalContact "BOMRef") (VStr) OrganizationalContact_BOMRef over_OrganizationalContact_BOMRef.
Proof. is_field_tac @over_OrganizationalContact_BOMRef @set_OrganizationalContact_BOMRef. Qed.
Lemma at_OrganizationalContact_Name : is_field reify_OrganizationalContact (ix fields_OrganizationalContact "Name") (VStr) OrganizationalContact_Name over_OrganizationalContact_Name.
Proof. is_field_tac @over_OrganizationalContact_Name @set_OrganizationalContact_Name. Qed.
Lemma at_OrganizationalEntity_BOMRef : is_field reify_OrganizationalEntity (ix fields_OrganizationalEntity "BOMRef") (VStr) OrganizationalEntity_BOMRef over_OrganizationalEntity_BOMRef.
Proof. is_field_tac @over_OrganizationalEntity_BOMRef @set_OrganizationalEntity_BOMRef. Qed.
Lemma at_OrganizationalEntity_Name : is_field reify_OrganizationalEntity (ix fields_OrganizationalEntity "Name") (VStr) OrganizationalEntity_Name over_OrganizationalEntity_Name.
Proof. is_field_tac @over_OrganizationalEntity_Name @set_OrganizationalEntity_Name. Qed.
Lemma at_OrganizationalEntity_Address : is_field reify_OrganizationalEntity (ix fields_OrganizationalEntity "Address") (vptr (reify_PostalAddress)) OrganizationalEntity_Address over_OrganizationalEntity_Address.
Proof. is_field_tac @over_OrganizationalEntity_Address @set_OrganizationalEntity_Address. Qed.
Lemma at_OrganizationalEntity_URL : is_field reify_OrganizationalEntity (ix fields_OrganizationalEntity "URL") (vptr (vslice (VStr))) OrganizationalEntity_URL over_OrganizationalEntity_URL.
Proof. is_field_tac @over_OrganizationalEntity_URL @set_OrganizationalEntity_URL. Qed.
Lemma at_OrganizationalEntity_Contact : is_field reify_OrganizationalEntity (ix fields_OrganizationalEntity "Contact") (vptr (vslice (reify_OrganizationalContact))) OrganizationalEntity_Contact over_OrganizationalEntity_Contact.
Proof. is_field_tac @over_OrganizationalEntity_Contact @set_OrganizationalEntity_Contact. Qed.
Lemma at_OrganizationalEntityOrContact_Organization : is_field reify_OrganizationalEntityOrContact (ix fields_OrganizationalEntityOrContact "Organization") (vptr (reify_OrganizationalEntity)) OrganizationalEntityOrContact_Organization over_OrganizationalEntityOrContact_Organization.
Proof. is_field_tac @over_OrganizationalEntityOrContact_Organization @set_OrganizationalEntityOrContact_Organization. Qed.
Lemma at_Pedigree_Ancestors {C} (f : C -> val) : is_field (reify_Pedigree_ f) (ix fields_Pedigree "Ancestors") (vptr (vslice (f))) Pedigree_Ancestors over_Pedigree_Ancestors.
Proof. is_field_tac @over_Pedigree_Ancestors @set_Pedigree_Ancestors. Qed.
Lemma at_Pedigree_Descendants {C} (f : C -> val) : is_field (reify_Pedigree_ f) (ix fields_Pedigree "Descendants") (vptr (vslice (f))) Pedigree_Descendants over_Pedigree_Descendants.
Proof. is_field_tac @over_Pedigree_Descendants @set_Pedigree_Descendants. Qed.
Lemma at_Pedigree_Variants {C} (f : C -> val) : is_field (reify_Pedigree_ f) (ix fields_Pedigree "Variants") (vptr (vslice (f))) Pedigree_Variants over_Pedigree_Variants.
Proof. is_field_tac @over_Pedigree_Variants @set_Pedigree_Variants. Qed.
Lemma at_Pedigree_Patches {C} (f : C -> val) : is_field (reify_Pedigree_ f) (ix fields_Pedigree "Patches") (vptr (vslice (reify_Patch))) Pedigree_Patches over_Pedigree_Patches.
Proof. is_field_tac @over_Pedigree_Patches @set_Pedigree_Patches. Qed.
Lemma at_RelatedCryptoMaterialProperties_Type : is_field reify_RelatedCryptoMaterialProperties (ix fields_RelatedCryptoMaterialProperties "Type") (VStr) RelatedCryptoMaterialProperties_Type over_RelatedCryptoMaterialProperties_Type.
Proof. is_field_tac @over_RelatedCryptoMaterialProperties_Type @set_RelatedCryptoMaterialProperties_Type. Qed.
Lemma at_RelatedCryptoMaterialProperties_ID : is_field reify_RelatedCryptoMaterialProperties (ix fields_RelatedCryptoMaterialProperties "ID") (VStr) RelatedCryptoMaterialProperties_ID over_RelatedCryptoMaterialProperties_ID.
Proof. is_field_tac @over_RelatedCryptoMaterialProperties_ID @set_RelatedCryptoMaterialProperties_ID. Qed.
Lemma at_RelatedCryptoMaterialProperties_CreationDate : is_field reify_RelatedCryptoMaterialProperties (ix fields_RelatedCryptoMaterialProperties "CreationDate") (VStr) RelatedCryptoMaterialProperties_CreationDate over_RelatedCryptoMaterialProperties_CreationDate.
Proof. is_field_tac @over_RelatedCryptoMaterialProperties_CreationDate @set_RelatedCryptoMaterialProperties_CreationDate. Qed.
Lemma at_RelatedCryptoMaterialProperties_ActivationDate : is_field reify_RelatedCryptoMaterialProperties (ix fields_RelatedCryptoMaterialProperties "ActivationDate") (VStr) RelatedCryptoMaterialProperties_ActivationDate over_RelatedCryptoMaterialProperties_ActivationDate.
Proof. is_field_tac @over_RelatedCryptoMaterialProperties_ActivationDate @set_RelatedCryptoMaterialProperties_ActivationDate. Qed.
Lemma at_RelatedCryptoMaterialProperties_Fingerprint : is_field reify_RelatedCryptoMaterialProperties (ix fields_RelatedCryptoMaterialProperties "Fingerprint") (vptr (reify_Hash)) RelatedCryptoMaterialProperties_Fingerprint over_RelatedCryptoMaterialProperties_Fingerprint.
Proof. is_field_tac @over_RelatedCryptoMaterialProperties_Fingerprint @set_RelatedCryptoMaterialProperties_Fingerprint. Qed.
Lemma at_RelatedCryptoMaterialProperties_RelatedCryptographicAssets : is_field reify_RelatedCryptoMaterialProperties (ix fields_RelatedCryptoMaterialProperties "RelatedCryptographicAssets") (vptr (vslice (reify_RelatedCryptographicAsset))) RelatedCryptoMaterialProperties_RelatedCryptographicAssets over_RelatedCryptoMaterialProperties_RelatedCryptographicAssets.
Proof. is_field_tac @over_RelatedCryptoMaterialProperties_RelatedCryptographicAssets @set_RelatedCryptoMaterialProperties_RelatedCryptographicAssets. Qed.
Lemma at_Service_BOMRef : is_field reify_Service (ix fields_Service "BOMRef") (VStr) Service_BOMRef over_Service_BOMRef.
Proof. is_field_tac @over_Service_BOMRef @set_Service_BOMRef. Qed.
Lemma at_Service_Provider : is_field reify_Service (ix fields_Service "Provider") (vptr (reify_OrganizationalEntity)) Service_Provider over_Service_Provider.
Proof. is_field_tac @over_Service_Provider @set_Service_Provider. Qed.
Lemma at_Service_Name : is_field reify_Service (ix fields_Service "Name") (VStr) Service_Name over_Service_Name.
Proof. is_field_tac @over_Service_Name @set_Service_Name. Qed.
Lemma at_Service_Version : is_field reify_Service (ix fields_Service "Version") (VStr) Service_Version over_Service_Version.
Proof. is_field_tac @over_Service_Version @set_Service_Version. Qed.
Lemma at_Service_Description : is_field reify_Service (ix fields_Service "Description") (VStr) Service_Description over_Service_Description.
Proof. is_field_tac @over_Service_Description @set_Service_Description. Qed.
Lemma at_Service_Data : is_field reify_Service (ix fields_Service "Data") (vptr (vslice (reify_DataClassification))) Service_Data over_Service_Data.
Proof. is_field_tac @over_Service_Data @set_Service_Data. Qed.
Lemma at_Service_Licenses : is_field reify_Service (ix fields_Service "Licenses") (vptr (vslice (reify_LicenseChoice))) Service_Licenses over_Service_Licenses.
Proof. is_field_tac @over_Service_Licenses @set_Service_Licenses. Qed.
Lemma at_Service_ExternalReferences : is_field reify_Service (ix fields_Service "ExternalReferences") (vptr (vslice (reify_ExternalReference))) Service_ExternalReferences over_Service_ExternalReferences.
Proof. is_field_tac @over_Service_ExternalReferences @set_Service_ExternalReferences. Qed.
Lemma at_Service_Properties : is_field reify_Service (ix fields_Service "Properties") (vptr (vslice (reify_Property))) Service_Properties over_Service_Properties.
Proof. is_field_tac @over_Service_Properties @set_Service_Properties. Qed.
Lemma at_Service_Services : is_field reify_Service (ix fields_Service "Services") (vptr (vslice (reify_Service))) Service_Services over_Service_Services.
Proof. is_field_tac @over_Service_Services @set_Service_Services. Qed.
Lemma at_Service_ReleaseNotes : is_field reify_Service (ix fields_Service "ReleaseNotes") (vptr (reify_ReleaseNotes)) Service_ReleaseNotes over_Service_ReleaseNotes.
Proof. is_field_tac @over_Service_ReleaseNotes @set_Service_ReleaseNotes. Qed.
Lemma at_Service_Tags : is_field reify_Service (ix fields_Service "Tags") (vptr (vslice (VStr))) Service_Tags over_Service_Tags.
Proof. is_field_tac @over_Service_Tags @set_Service_Tags. Qed.
Lemma at_Service_TrustZone : is_field reify_Service (ix fields_Service "TrustZone") (VStr) Service_TrustZone over_Service_TrustZone.
Proof. is_field_tac @over_Service_TrustZone @set_Service_TrustZone. Qed.
Lemma at_Service_PatentAssertions : is_field reify_Service (ix fields_Service "PatentAssertions") (vptr (vslice (reify_PatentAssertion))) Service_PatentAssertions over_Service_PatentAssertions.
Proof. is_field_tac @over_Service_PatentAssertions @set_Service_PatentAssertions. Qed.
Lemma at_Tool_Name : is_field reify_Tool (ix fields_Tool "Name") (VStr) Tool_Name over_Tool_Name.
Proof. is_field_tac @over_Tool_Name @set_Tool_Name. Qed.
Lemma at_Tool_Version : is_field reify_Tool (ix fields_Tool "Version") (VStr) Tool_Version over_Tool_Version.
Proof. is_field_tac @over_Tool_Version @set_Tool_Version. Qed.
Lemma at_Tool_Hashes : is_field reify_Tool (ix fields_Tool "Hashes") (vptr (vslice (reify_Hash))) Tool_Hashes over_Tool_Hashes.
Proof. is_field_tac @over_Tool_Hashes @set_Tool_Hashes. Qed.
Lemma at_Tool_ExternalReferences : is_field reify_Tool (ix fields_Tool "ExternalReferences") (vptr (vslice (reify_ExternalReference))) Tool_ExternalReferences over_Tool_ExternalReferences.
Proof. is_field_tac @over_Tool_ExternalReferences @set_Tool_ExternalReferences. Qed.
Lemma at_ToolsChoice_Tools : is_field reify_ToolsChoice (ix fields_ToolsChoice "Tools") (vptr (vslice (reify_Tool))) ToolsChoice_Tools over_ToolsChoice_Tools.
Proof. is_field_tac @over_ToolsChoice_Tools @set_ToolsChoice_Tools. Qed.
Lemma at_ToolsChoice_Components : is_field reify_ToolsChoice (ix fields_ToolsChoice "Components") (vptr (vslice (reify_Component))) ToolsChoice_Components over_ToolsChoice_Components.
Proof. is_field_tac @over_ToolsChoice_Components @set_ToolsChoice_Components. Qed.
Lemma at_ToolsChoice_Services : is_field reify_ToolsChoice (ix fields_ToolsChoice "Services") (vptr (vslice (reify_Service))) ToolsChoice_Services over_ToolsChoice_Services.
Proof. is_field_tac @over_ToolsChoice_Services @set_ToolsChoice_Services. Qed.
Lemma at_Vulnerability_BOMRef : is_field reify_Vulnerability (ix fields_Vulnerability "BOMRef") (VStr) Vulnerability_BOMRef over_Vulnerability_BOMRef.
Proof. is_field_tac @over_Vulnerability_BOMRef @set_Vulnerability_BOMRef. Qed.
Lemma at_Vulnerability_ID : is_field reify_Vulnerability (ix fields_Vulnerability "ID") (VStr) Vulnerability_ID over_Vulnerability_ID.
Proof. is_field_tac @over_Vulnerability_ID @set_Vulnerability_ID. Qed.
Lemma at_Vulnerability_Source : is_field reify_Vulnerability (ix fields_Vulnerability "Source") (vptr (reify_Source)) Vulnerability_Source over_Vulnerability_Source.
Proof. is_field_tac @over_Vulnerability_Source @set_Vulnerability_Source. Qed.
Lemma at_Vulnerability_Ratings : is_field reify_Vulnerability (ix fields_Vulnerability "Ratings") (vptr (vslice (reify_VulnerabilityRating))) Vulnerability_Ratings over_Vulnerability_Ratings.
Proof. is_field_tac @over_Vulnerability_Ratings @set_Vulnerability_Ratings. Qed.
Lemma at_Vulnerability_Description : is_field reify_Vulnerability (ix fields_Vulnerability "Description") (VStr) Vulnerability_Description over_Vulnerability_Description.
Proof. is_field_tac @over_Vulnerability_Description @set_Vulnerability_Description. Qed.
Lemma at_Vulnerability_Workaround : is_field reify_Vulnerability (ix fields_Vulnerability "Workaround") (VStr) Vulnerability_Workaround over_Vulnerability_Workaround.
Proof. is_field_tac @over_Vulnerability_Workaround @set_Vulnerability_Workaround. Qed.
Lemma at_Vulnerability_ProofOfConcept : is_field reify_Vulnerability (ix fields_Vulnerability "ProofOfConcept") (vptr (reify_ProofOfConcept)) Vulnerability_ProofOfConcept over_Vulnerability_ProofOfConcept.
Proof. is_field_tac @over_Vulnerability_ProofOfConcept @set_Vulnerability_ProofOfConcept. Qed.
Lemma at_Vulnerability_Rejected : is_field reify_Vulnerability (ix fields_Vulnerability "Rejected") (VStr) Vulnerability_Rejected over_Vulnerability_Rejected.
Proof. is_field_tac @over_Vulnerability_Rejected @set_Vulnerability_Rejected. Qed.
Lemma at_Vulnerability_Credits : is_field reify_Vulnerability (ix fields_Vulnerability "Credits") (vptr (reify_Credits)) Vulnerability_Credits over_Vulnerability_Credits.
Proof. is_field_tac @over_Vulnerability_Credits @set_Vulnerability_Credits. Qed.
Lemma at_Vulnerability_Tools : is_field reify_Vulnerability (ix fields_Vulnerability "Tools") (vptr (reify_ToolsChoice)) Vulnerability_Tools over_Vulnerability_Tools.
Proof. is_field_tac @over_Vulnerability_Tools @set_Vulnerability_Tools. Qed.
Lemma at_Vulnerability_Analysis : is_field reify_Vulnerability (ix fields_Vulnerability "Analysis") (vptr (reify_VulnerabilityAnalysis)) Vulnerability_Analysis over_Vulnerability_Analysis.
Proof. is_field_tac @over_Vulnerability_Analysis @set_Vulnerability_Analysis. Qed.
Lemma at_Vulnerability_Properties : is_field reify_Vulnerability (ix fields_Vulnerability "Properties") (vptr (vslice (reify_Property))) Vulnerability_Properties over_Vulnerability_Properties.
Proof. is_field_tac @over_Vulnerability_Properties @set_Vulnerability_Properties. Qed.
Lemma at_VulnerabilityAnalysis_FirstIssued : is_field reify_VulnerabilityAnalysis (ix fields_VulnerabilityAnalysis "FirstIssued") (VStr) VulnerabilityAnalysis_FirstIssued over_VulnerabilityAnalysis_FirstIssued.
Proof. is_field_tac @over_VulnerabilityAnalysis_FirstIssued @set_VulnerabilityAnalysis_FirstIssued. Qed.
Lemma at_VulnerabilityAnalysis_LastUpdated : is_field reify_VulnerabilityAnalysis (ix fields_VulnerabilityAnalysis "LastUpdated") (VStr) VulnerabilityAnalysis_LastUpdated over_VulnerabilityAnalysis_LastUpdated.
Proof. is_field_tac @over_VulnerabilityAnalysis_LastUpdated @set_VulnerabilityAnalysis_LastUpdated. Qed.
Lemma at_VulnerabilityRating_Source : is_field reify_VulnerabilityRating (ix fields_VulnerabilityRating "Source") (vptr (reify_Source)) VulnerabilityRating_Source over_VulnerabilityRating_Source.
Proof. is_field_tac @over_VulnerabilityRating_Source @set_VulnerabilityRating_Source. Qed.
Lemma at_VulnerabilityRating_Method : is_field reify_VulnerabilityRating (ix fields_VulnerabilityRating "Method") (VStr) VulnerabilityRating_Method over_VulnerabilityRating_Method.
Proof. is_field_tac @over_VulnerabilityRating_Method @set_VulnerabilityRating_Method. Qed.
Create HintDb hfields discriminated.
Global Hint Extern 1 (is_field reify_Annotation (ix fields_Annotation "BOMRef") _ _ _) => apply at_Annotation_BOMRef : hfields.
Global Hint Extern 1 (is_field reify_Annotation (ix fields_Annotation "Annotator") _ _ _) => apply at_Annotation_Annotator : hfields.
Global Hint Extern 1 (is_field reify_Annotation (ix fields_Annotation "Text") _ _ _) => apply at_Annotation_Text : hfields.
Global Hint Extern 1 (is_field reify_Annotator (ix fields_Annotator "Organization") _ _ _) => apply at_Annotator_Organization : hfields.
Global Hint Extern 1 (is_field reify_Annotator (ix fields_Annotator "Component") _ _ _) => apply at_Annotator_Component : hfields.
Global Hint Extern 1 (is_field reify_Annotator (ix fields_Annotator "Service") _ _ _) => apply at_Annotator_Service : hfields.
Global Hint Extern 1 (is_field reify_BOM (ix fields_BOM "XMLNS") _ _ _) => apply at_BOM_XMLNS : hfields.
Global Hint Extern 1 (is_field reify_BOM (ix fields_BOM "JSONSchema") _ _ _) => apply at_BOM_JSONSchema : hfields.
Global Hint Extern 1 (is_field reify_BOM (ix fields_BOM "SpecVersion") _ _ _) => apply at_BOM_SpecVersion : hfields.
Global Hint Extern 1 (is_field reify_BOM (ix fields_BOM "SerialNumber") _ _ _) => apply at_BOM_SerialNumber : hfields.
Global Hint Extern 1 (is_field reify_BOM (ix fields_BOM "Version") _ _ _) => apply at_BOM_Version : hfields.
Global Hint Extern 1 (is_field reify_BOM (ix fields_BOM "Metadata") _ _ _) => apply at_BOM_Metadata : hfields.
Global Hint Extern 1 (is_field reify_BOM (ix fields_BOM "Components") _ _ _) => apply at_BOM_Components : hfields.
Global Hint Extern 1 (is_field reify_BOM (ix fields_BOM "Services") _ _ _) => apply at_BOM_Services : hfields.
Global Hint Extern 1 (is_field reify_BOM (ix fields_BOM "ExternalReferences") _ _ _) => apply at_BOM_ExternalReferences : hfields.
Global Hint Extern 1 (is_field reify_BOM (ix fields_BOM "Dependencies") _ _ _) => apply at_BOM_Dependencies : hfields.
Global Hint Extern 1 (is_field reify_BOM (ix fields_BOM "Compositions") _ _ _) => apply at_BOM_Compositions : hfields.
Global Hint Extern 1 (is_field reify_BOM (ix fields_BOM "Properties") _ _ _) => apply at_BOM_Properties : hfields.
Global Hint Extern 1 (is_field reify_BOM (ix fields_BOM "Vulnerabilities") _ _ _) => apply at_BOM_Vulnerabilities : hfields.
Global Hint Extern 1 (is_field reify_BOM (ix fields_BOM "Annotations") _ _ _) => apply at_BOM_Annotations : hfields.
Global Hint Extern 1 (is_field reify_BOM (ix fields_BOM "Formulation") _ _ _) => apply at_BOM_Formulation : hfields.
Global Hint Extern 1 (is_field reify_BOM (ix fields_BOM "Declarations") _ _ _) => apply at_BOM_Declarations : hfields.
Global Hint Extern 1 (is_field reify_BOM (ix fields_BOM "Definitions") _ _ _) => apply at_BOM_Definitions : hfields.
Global Hint Extern 1 (is_field reify_BOM (ix fields_BOM "Citations") _ _ _) => apply at_BOM_Citations : hfields.
Global Hint Extern 1 (is_field reify_CertificateProperties (ix fields_CertificateProperties "SerialNumber") _ _ _) => apply at_CertificateProperties_SerialNumber : hfields.
Global Hint Extern 1 (is_field reify_CertificateProperties (ix fields_CertificateProperties "CertificateFileExtension") _ _ _) => apply at_CertificateProperties_CertificateFileExtension : hfields.
Global Hint Extern 1 (is_field reify_CertificateProperties (ix fields_CertificateProperties "Fingerprint") _ _ _) => apply at_CertificateProperties_Fingerprint : hfields.
Global Hint Extern 1 (is_field reify_CertificateProperties (ix fields_CertificateProperties "CertificateState") _ _ _) => apply at_CertificateProperties_CertificateState : hfields.
Global Hint Extern 1 (is_field reify_CertificateProperties (ix fields_CertificateProperties "CertificateExtensions") _ _ _) => apply at_CertificateProperties_CertificateExtensions : hfields.
Global Hint Extern 1 (is_field reify_CertificateProperties (ix fields_CertificateProperties "RelatedCryptographicAssets") _ _ _) => apply at_CertificateProperties_RelatedCryptographicAssets : hfields.
Global Hint Extern 1 (is_field reify_CertificateProperties (ix fields_CertificateProperties "CreationDate") _ _ _) => apply at_CertificateProperties_CreationDate : hfields.
Global Hint Extern 1 (is_field reify_CertificateProperties (ix fields_CertificateProperties "ActivationDate") _ _ _) => apply at_CertificateProperties_ActivationDate : hfields.
Global Hint Extern 1 (is_field reify_CertificateProperties (ix fields_CertificateProperties "DeactivationDate") _ _ _) => apply at_CertificateProperties_DeactivationDate : hfields.
Global Hint Extern 1 (is_field reify_CertificateProperties (ix fields_CertificateProperties "RevocationDate") _ _ _) => apply at_CertificateProperties_RevocationDate : hfields.
Global Hint Extern 1 (is_field reify_CertificateProperties (ix fields_CertificateProperties "DestructionDate") _ _ _) => apply at_CertificateProperties_DestructionDate : hfields.
Global Hint Extern 1 (is_field reify_CipherSuite (ix fields_CipherSuite "Name") _ _ _) => apply at_CipherSuite_Name : hfields.
Global Hint Extern 1 (is_field reify_CipherSuite (ix fields_CipherSuite "TLSGroups") _ _ _) => apply at_CipherSuite_TLSGroups : hfields.
Global Hint Extern 1 (is_field reify_CipherSuite (ix fields_CipherSuite "TLSSignatureSchemes") _ _ _) => apply at_CipherSuite_TLSSignatureSchemes : hfields.
Global Hint Extern 1 (is_field reify_Component (ix fields_Component "BOMRef") _ _ _) => apply at_Component_BOMRef : hfields.
Global Hint Extern 1 (is_field reify_Component (ix fields_Component "MIMEType") _ _ _) => apply at_Component_MIMEType : hfields.
Global Hint Extern 1 (is_field reify_Component (ix fields_Component "Type") _ _ _) => apply at_Component_Type : hfields.
Global Hint Extern 1 (is_field reify_Component (ix fields_Component "Supplier") _ _ _) => apply at_Component_Supplier : hfields.
Global Hint Extern 1 (is_field reify_Component (ix fields_Component "Manufacturer") _ _ _) => apply at_Component_Manufacturer : hfields.
Global Hint Extern 1 (is_field reify_Component (ix fields_Component "Author") _ _ _) => apply at_Component_Author : hfields.
Global Hint Extern 1 (is_field reify_Component (ix fields_Component "Authors") _ _ _) => apply at_Component_Authors : hfields.
Global Hint Extern 1 (is_field reify_Component (ix fields_Component "Name") _ _ _) => apply at_Component_Name : hfields.
Global Hint Extern 1 (is_field reify_Component (ix fields_Component "Version") _ _ _) => apply at_Component_Version : hfields.
Global Hint Extern 1 (is_field reify_Component (ix fields_Component "Description") _ _ _) => apply at_Component_Description : hfields.
Global Hint Extern 1 (is_field reify_Component (ix fields_Component "Scope") _ _ _) => apply at_Component_Scope : hfields.
Global Hint Extern 1 (is_field reify_Component (ix fields_Component "Hashes") _ _ _) => apply at_Component_Hashes : hfields.
Global Hint Extern 1 (is_field reify_Component (ix fields_Component "Licenses") _ _ _) => apply at_Component_Licenses : hfields.
Global Hint Extern 1 (is_field reify_Component (ix fields_Component "OmniborID") _ _ _) => apply at_Component_OmniborID : hfields.
Global Hint Extern 1 (is_field reify_Component (ix fields_Component "SWHID") _ _ _) => apply at_Component_SWHID : hfields.
Global Hint Extern 1 (is_field reify_Component (ix fields_Component "SWID") _ _ _) => apply at_Component_SWID : hfields.
Global Hint Extern 1 (is_field reify_Component (ix fields_Component "Modified") _ _ _) => apply at_Component_Modified : hfields.
Global Hint Extern 1 (is_field reify_Component (ix fields_Component "Pedigree") _ _ _) => apply at_Component_Pedigree : hfields.
Global Hint Extern 1 (is_field reify_Component (ix fields_Component "ExternalReferences") _ _ _) => apply at_Component_ExternalReferences : hfields.
Global Hint Extern 1 (is_field reify_Component (ix fields_Component "Properties") _ _ _) => apply at_Component_Properties : hfields.
Global Hint Extern 1 (is_field reify_Component (ix fields_Component "Components") _ _ _) => apply at_Component_Components : hfields.
Global Hint Extern 1 (is_field reify_Component (ix fields_Component "Evidence") _ _ _) => apply at_Component_Evidence : hfields.
Global Hint Extern 1 (is_field reify_Component (ix fields_Component "ReleaseNotes") _ _ _) => apply at_Component_ReleaseNotes : hfields.
Global Hint Extern 1 (is_field reify_Component (ix fields_Component "ModelCard") _ _ _) => apply at_Component_ModelCard : hfields.
Global Hint Extern 1 (is_field reify_Component (ix fields_Component "Data") _ _ _) => apply at_Component_Data : hfields.
Global Hint Extern 1 (is_field reify_Component (ix fields_Component "CryptoProperties") _ _ _) => apply at_Component_CryptoProperties : hfields.
Global Hint Extern 1 (is_field reify_Component (ix fields_Component "Tags") _ _ _) => apply at_Component_Tags : hfields.
Global Hint Extern 1 (is_field reify_Component (ix fields_Component "IsExternal") _ _ _) => apply at_Component_IsExternal : hfields.
Global Hint Extern 1 (is_field reify_Component (ix fields_Component "PatentAssertions") _ _ _) => apply at_Component_PatentAssertions : hfields.
Global Hint Extern 1 (is_field reify_Component (ix fields_Component "VersionRange") _ _ _) => apply at_Component_VersionRange : hfields.
Global Hint Extern 1 (is_field reify_Composition (ix fields_Composition "BOMRef") _ _ _) => apply at_Composition_BOMRef : hfields.
Global Hint Extern 1 (is_field reify_Composition (ix fields_Composition "Aggregate") _ _ _) => apply at_Composition_Aggregate : hfields.
Global Hint Extern 1 (is_field reify_Composition (ix fields_Composition "Dependencies") _ _ _) => apply at_Composition_Dependencies : hfields.
Global Hint Extern 1 (is_field reify_Composition (ix fields_Composition "Vulnerabilities") _ _ _) => apply at_Composition_Vulnerabilities : hfields.
Global Hint Extern 1 (is_field reify_Credits (ix fields_Credits "Organizations") _ _ _) => apply at_Credits_Organizations : hfields.
Global Hint Extern 1 (is_field reify_Credits (ix fields_Credits "Individuals") _ _ _) => apply at_Credits_Individuals : hfields.
Global Hint Extern 1 (is_field reify_CryptoAlgorithmProperties (ix fields_CryptoAlgorithmProperties "Primitive") _ _ _) => apply at_CryptoAlgorithmProperties_Primitive : hfields.
Global Hint Extern 1 (is_field reify_CryptoAlgorithmProperties (ix fields_CryptoAlgorithmProperties "AlgorithmFamily") _ _ _) => apply at_CryptoAlgorithmProperties_AlgorithmFamily : hfields.
Global Hint Extern 1 (is_field reify_CryptoAlgorithmProperties (ix fields_CryptoAlgorithmProperties "EllipticCurve") _ _ _) => apply at_CryptoAlgorithmProperties_EllipticCurve : hfields.
Global Hint Extern 1 (is_field reify_CryptoProperties (ix fields_CryptoProperties "AlgorithmProperties") _ _ _) => apply at_CryptoProperties_AlgorithmProperties : hfields.
Global Hint Extern 1 (is_field reify_CryptoProperties (ix fields_CryptoProperties "CertificateProperties") _ _ _) => apply at_CryptoProperties_CertificateProperties : hfields.
Global Hint Extern 1 (is_field reify_CryptoProperties (ix fields_CryptoProperties "RelatedCryptoMaterialProperties") _ _ _) => apply at_CryptoProperties_RelatedCryptoMaterialProperties : hfields.
Global Hint Extern 1 (is_field reify_CryptoProperties (ix fields_CryptoProperties "ProtocolProperties") _ _ _) => apply at_CryptoProperties_ProtocolProperties : hfields.
Global Hint Extern 1 (is_field reify_CryptoProtocolProperties (ix fields_CryptoProtocolProperties "Type") _ _ _) => apply at_CryptoProtocolProperties_Type : hfields.
Global Hint Extern 1 (is_field reify_CryptoProtocolProperties (ix fields_CryptoProtocolProperties "Version") _ _ _) => apply at_CryptoProtocolProperties_Version : hfields.
Global Hint Extern 1 (is_field reify_CryptoProtocolProperties (ix fields_CryptoProtocolProperties "CipherSuites") _ _ _) => apply at_CryptoProtocolProperties_CipherSuites : hfields.
Global Hint Extern 1 (is_field reify_CryptoProtocolProperties (ix fields_CryptoProtocolProperties "RelatedCryptographicAssets") _ _ _) => apply at_CryptoProtocolProperties_RelatedCryptographicAssets : hfields.
Global Hint Extern 1 (is_field reify_DataClassification (ix fields_DataClassification "Name") _ _ _) => apply at_DataClassification_Name : hfields.
Global Hint Extern 1 (is_field reify_DataClassification (ix fields_DataClassification "Description") _ _ _) => apply at_DataClassification_Description : hfields.
Global Hint Extern 1 (is_field reify_DataClassification (ix fields_DataClassification "Governance") _ _ _) => apply at_DataClassification_Governance : hfields.
Global Hint Extern 1 (is_field reify_DataClassification (ix fields_DataClassification "Source") _ _ _) => apply at_DataClassification_Source : hfields.
Global Hint Extern 1 (is_field reify_DataClassification (ix fields_DataClassification "Destination") _ _ _) => apply at_DataClassification_Destination : hfields.
Global Hint Extern 1 (is_field reify_Definitions (ix fields_Definitions "Patents") _ _ _) => apply at_Definitions_Patents : hfields.
Global Hint Extern 1 (is_field reify_Dependency (ix fields_Dependency "Dependencies") _ _ _) => apply at_Dependency_Dependencies : hfields.
Global Hint Extern 1 (is_field reify_Dependency (ix fields_Dependency "Provides") _ _ _) => apply at_Dependency_Provides : hfields.
Global Hint Extern 1 (is_field reify_Evidence (ix fields_Evidence "Identity") _ _ _) => apply at_Evidence_Identity : hfields.
Global Hint Extern 1 (is_field reify_Evidence (ix fields_Evidence "Occurrences") _ _ _) => apply at_Evidence_Occurrences : hfields.
Global Hint Extern 1 (is_field reify_Evidence (ix fields_Evidence "Callstack") _ _ _) => apply at_Evidence_Callstack : hfields.
Global Hint Extern 1 (is_field reify_Evidence (ix fields_Evidence "Licenses") _ _ _) => apply at_Evidence_Licenses : hfields.
Global Hint Extern 1 (is_field reify_EvidenceIdentity (ix fields_EvidenceIdentity "ConcludedValue") _ _ _) => apply at_EvidenceIdentity_ConcludedValue : hfields.
Global Hint Extern 1 (is_field reify_EvidenceIdentity (ix fields_EvidenceIdentity "Tools") _ _ _) => apply at_EvidenceIdentity_Tools : hfields.
Global Hint Extern 1 (is_field reify_EvidenceIdentityChoice (ix fields_EvidenceIdentityChoice "Identity") _ _ _) => apply at_EvidenceIdentityChoice_Identity : hfields.
Global Hint Extern 1 (is_field reify_EvidenceIdentityChoice (ix fields_EvidenceIdentityChoice "Identities") _ _ _) => apply at_EvidenceIdentityChoice_Identities : hfields.
Global Hint Extern 1 (is_field reify_EvidenceOccurrence (ix fields_EvidenceOccurrence "BOMRef") _ _ _) => apply at_EvidenceOccurrence_BOMRef : hfields.
Global Hint Extern 1 (is_field reify_EvidenceOccurrence (ix fields_EvidenceOccurrence "Line") _ _ _) => apply at_EvidenceOccurrence_Line : hfields.
Global Hint Extern 1 (is_field reify_EvidenceOccurrence (ix fields_EvidenceOccurrence "Offset") _ _ _) => apply at_EvidenceOccurrence_Offset : hfields.
Global Hint Extern 1 (is_field reify_EvidenceOccurrence (ix fields_EvidenceOccurrence "Symbol") _ _ _) => apply at_EvidenceOccurrence_Symbol : hfields.
Global Hint Extern 1 (is_field reify_EvidenceOccurrence (ix fields_EvidenceOccurrence "AdditionalContext") _ _ _) => apply at_EvidenceOccurrence_AdditionalContext : hfields.
Global Hint Extern 1 (is_field reify_ExternalReference (ix fields_ExternalReference "URL") _ _ _) => apply at_ExternalReference_URL : hfields.
Global Hint Extern 1 (is_field reify_ExternalReference (ix fields_ExternalReference "Hashes") _ _ _) => apply at_ExternalReference_Hashes : hfields.
Global Hint Extern 1 (is_field reify_ExternalReference (ix fields_ExternalReference "Type") _ _ _) => apply at_ExternalReference_Type : hfields.
Global Hint Extern 1 (is_field reify_ExternalReference (ix fields_ExternalReference "Properties") _ _ _) => apply at_ExternalReference_Properties : hfields.
Global Hint Extern 1 (is_field reify_Hash (ix fields_Hash "Algorithm") _ _ _) => apply at_Hash_Algorithm : hfields.
Global Hint Extern 1 (is_field reify_License (ix fields_License "BOMRef") _ _ _) => apply at_License_BOMRef : hfields.
Global Hint Extern 1 (is_field reify_License (ix fields_License "ID") _ _ _) => apply at_License_ID : hfields.
Global Hint Extern 1 (is_field reify_License (ix fields_License "Name") _ _ _) => apply at_License_Name : hfields.
Global Hint Extern 1 (is_field reify_License (ix fields_License "Acknowledgement") _ _ _) => apply at_License_Acknowledgement : hfields.
Global Hint Extern 1 (is_field reify_License (ix fields_License "Text") _ _ _) => apply at_License_Text : hfields.
Global Hint Extern 1 (is_field reify_License (ix fields_License "URL") _ _ _) => apply at_License_URL : hfields.
Global Hint Extern 1 (is_field reify_License (ix fields_License "Licensing") _ _ _) => apply at_License_Licensing : hfields.
Global Hint Extern 1 (is_field reify_License (ix fields_License "Properties") _ _ _) => apply at_License_Properties : hfields.
Global Hint Extern 1 (is_field reify_LicenseChoice (ix fields_LicenseChoice "License") _ _ _) => apply at_LicenseChoice_License : hfields.
Global Hint Extern 1 (is_field reify_LicenseChoice (ix fields_LicenseChoice "Expression") _ _ _) => apply at_LicenseChoice_Expression : hfields.
Global Hint Extern 1 (is_field reify_LicenseChoice (ix fields_LicenseChoice "ExpressionDetails") _ _ _) => apply at_LicenseChoice_ExpressionDetails : hfields.
Global Hint Extern 1 (is_field reify_LicenseChoice (ix fields_LicenseChoice "Acknowledgement") _ _ _) => apply at_LicenseChoice_Acknowledgement : hfields.
Global Hint Extern 1 (is_field reify_LicenseChoice (ix fields_LicenseChoice "BOMRef") _ _ _) => apply at_LicenseChoice_BOMRef : hfields.
Global Hint Extern 1 (is_field reify_LicenseChoice (ix fields_LicenseChoice "Licensing") _ _ _) => apply at_LicenseChoice_Licensing : hfields.
Global Hint Extern 1 (is_field reify_LicenseChoice (ix fields_LicenseChoice "Properties") _ _ _) => apply at_LicenseChoice_Properties : hfields.
Global Hint Extern 1 (is_field reify_Licensing (ix fields_Licensing "Licensor") _ _ _) => apply at_Licensing_Licensor : hfields.
Global Hint Extern 1 (is_field reify_Licensing (ix fields_Licensing "Licensee") _ _ _) => apply at_Licensing_Licensee : hfields.
Global Hint Extern 1 (is_field reify_Licensing (ix fields_Licensing "Purchaser") _ _ _) => apply at_Licensing_Purchaser : hfields.
Global Hint Extern 1 (is_field reify_MLModelCard (ix fields_MLModelCard "BOMRef") _ _ _) => apply at_MLModelCard_BOMRef : hfields.
Global Hint Extern 1 (is_field reify_MLModelCard (ix fields_MLModelCard "Considerations") _ _ _) => apply at_MLModelCard_Considerations : hfields.
Global Hint Extern 1 (is_field reify_MLModelCardConsiderations (ix fields_MLModelCardConsiderations "EnvironmentalConsiderations") _ _ _) => apply at_MLModelCardConsiderations_EnvironmentalConsiderations : hfields.
Global Hint Extern 1 (is_field reify_Metadata (ix fields_Metadata "Lifecycles") _ _ _) => apply at_Metadata_Lifecycles : hfields.
Global Hint Extern 1 (is_field reify_Metadata (ix fields_Metadata "Tools") _ _ _) => apply at_Metadata_Tools : hfields.
Global Hint Extern 1 (is_field reify_Metadata (ix fields_Metadata "Authors") _ _ _) => apply at_Metadata_Authors : hfields.
Global Hint Extern 1 (is_field reify_Metadata (ix fields_Metadata "Component") _ _ _) => apply at_Metadata_Component : hfields.
Global Hint Extern 1 (is_field reify_Metadata (ix fields_Metadata "Manufacture") _ _ _) => apply at_Metadata_Manufacture : hfields.
Global Hint Extern 1 (is_field reify_Metadata (ix fields_Metadata "Manufacturer") _ _ _) => apply at_Metadata_Manufacturer : hfields.
Global Hint Extern 1 (is_field reify_Metadata (ix fields_Metadata "Supplier") _ _ _) => apply at_Metadata_Supplier : hfields.
Global Hint Extern 1 (is_field reify_Metadata (ix fields_Metadata "Licenses") _ _ _) => apply at_Metadata_Licenses : hfields.
Global Hint Extern 1 (is_field reify_Metadata (ix fields_Metadata "Properties") _ _ _) => apply at_Metadata_Properties : hfields.
Global Hint Extern 1 (is_field reify_Metadata (ix fields_Metadata "DistributionConstraints") _ _ _) => apply at_Metadata_DistributionConstraints : hfields.
Global Hint Extern 1 (is_field reify_OrganizationalContact (ix fields_OrganizationalContact "BOMRef") _ _ _) => apply at_OrganizationalContact_BOMRef : hfields.
Global Hint Extern 1 (is_field reify_OrganizationalContact (ix fields_OrganizationalContact "Name") _ _ _) => apply at_OrganizationalContact_Name : hfields.
Global Hint Extern 1 (is_field reify_OrganizationalEntity (ix fields_OrganizationalEntity "BOMRef") _ _ _) => apply at_OrganizationalEntity_BOMRef : hfields.
Global Hint Extern 1 (is_field reify_OrganizationalEntity (ix fields_OrganizationalEntity "Name") _ _ _) => apply at_OrganizationalEntity_Name : hfields.
Global Hint Extern 1 (is_field reify_OrganizationalEntity (ix fields_OrganizationalEntity "Address") _ _ _) => apply at_OrganizationalEntity_Address : hfields.
Global Hint Extern 1 (is_field reify_OrganizationalEntity (ix fields_OrganizationalEntity "URL") _ _ _) => apply at_OrganizationalEntity_URL : hfields.
Global Hint Extern 1 (is_field reify_OrganizationalEntity (ix fields_OrganizationalEntity "Contact") _ _ _) => apply at_OrganizationalEntity_Contact : hfields.
Global Hint Extern 1 (is_field reify_OrganizationalEntityOrContact (ix fields_OrganizationalEntityOrContact "Organization") _ _ _) => apply at_OrganizationalEntityOrContact_Organization : hfields.
Global Hint Extern 1 (is_field (reify_Pedigree_ _) (ix fields_Pedigree "Ancestors") _ _ _) => apply at_Pedigree_Ancestors : hfields.
Global Hint Extern 1 (is_field (reify_Pedigree_ _) (ix fields_Pedigree "Descendants") _ _ _) => apply at_Pedigree_Descendants : hfields.
Global Hint Extern 1 (is_field (reify_Pedigree_ _) (ix fields_Pedigree "Variants") _ _ _) => apply at_Pedigree_Variants : hfields.
Global Hint Extern 1 (is_field (reify_Pedigree_ _) (ix fields_Pedigree "Patches") _ _ _) => apply at_Pedigree_Patches : hfields.
Global Hint Extern 1 (is_field reify_RelatedCryptoMaterialProperties (ix fields_RelatedCryptoMaterialProperties "Type") _ _ _) => apply at_RelatedCryptoMaterialProperties_Type : hfields.
Global Hint Extern 1 (is_field reify_RelatedCryptoMaterialProperties (ix fields_RelatedCryptoMaterialProperties "ID") _ _ _) => apply at_RelatedCryptoMaterialProperties_ID : hfields.
Global Hint Extern 1 (is_field reify_RelatedCryptoMaterialProperties (ix fields_RelatedCryptoMaterialProperties "CreationDate") _ _ _) => apply at_RelatedCryptoMaterialProperties_CreationDate : hfields.
Global Hint Extern 1 (is_field reify_RelatedCryptoMaterialProperties (ix fields_RelatedCryptoMaterialProperties "ActivationDate") _ _ _) => apply at_RelatedCryptoMaterialProperties_ActivationDate : hfields.
Global Hint Extern 1 (is_field reify_RelatedCryptoMaterialProperties (ix fields_RelatedCryptoMaterialProperties "Fingerprint") _ _ _) => apply at_RelatedCryptoMaterialProperties_Fingerprint : hfields.
Global Hint Extern 1 (is_field reify_RelatedCryptoMaterialProperties (ix fields_RelatedCryptoMaterialProperties "RelatedCryptographicAssets") _ _ _) => apply at_RelatedCryptoMaterialProperties_RelatedCryptographicAssets : hfields.
Global Hint Extern 1 (is_field reify_Service (ix fields_Service "BOMRef") _ _ _) => apply at_Service_BOMRef : hfields.
Global Hint Extern 1 (is_field reify_Service (ix fields_Service "Provider") _ _ _) => apply at_Service_Provider : hfields.
Global Hint Extern 1 (is_field reify_Service (ix fields_Service "Name") _ _ _) => apply at_Service_Name : hfields.
Global Hint Extern 1 (is_field reify_Service (ix fields_Service "Version") _ _ _) => apply at_Service_Version : hfields.
Global Hint Extern 1 (is_field reify_Service (ix fields_Service "Description") _ _ _) => apply at_Service_Description : hfields.
Global Hint Extern 1 (is_field reify_Service (ix fields_Service "Data") _ _ _) => apply at_Service_Data : hfields.
Global Hint Extern 1 (is_field reify_Service (ix fields_Service "Licenses") _ _ _) => apply at_Service_Licenses : hfields.
Global Hint Extern 1 (is_field reify_Service (ix fields_Service "ExternalReferences") _ _ _) => apply at_Service_ExternalReferences : hfields.
Global Hint Extern 1 (is_field reify_Service (ix fields_Service "Properties") _ _ _) => apply at_Service_Properties : hfields.
Global Hint Extern 1 (is_field reify_Service (ix fields_Service "Services") _ _ _) => apply at_Service_Services : hfields.
Global Hint Extern 1 (is_field reify_Service (ix fields_Service "ReleaseNotes") _ _ _) => apply at_Service_ReleaseNotes : hfields.
Global Hint Extern 1 (is_field reify_Service (ix fields_Service "Tags") _ _ _) => apply at_Service_Tags : hfields.
Global Hint Extern 1 (is_field reify_Service (ix fields_Service "TrustZone") _ _ _) => apply at_Service_TrustZone : hfields.
Global Hint Extern 1 (is_field reify_Service (ix fields_Service "PatentAssertions") _ _ _) => apply at_Service_PatentAssertions : hfields.
Global Hint Extern 1 (is_field reify_Tool (ix fields_Tool "Name") _ _ _) => apply at_Tool_Name : hfields.
Global Hint Extern 1 (is_field reify_Tool (ix fields_Tool "Version") _ _ _) => apply at_Tool_Version : hfields.
Global Hint Extern 1 (is_field reify_Tool (ix fields_Tool "Hashes") _ _ _) => apply at_Tool_Hashes : hfields.
Global Hint Extern 1 (is_field reify_Tool (ix fields_Tool "ExternalReferences") _ _ _) => apply at_Tool_ExternalReferences : hfields.
Global Hint Extern 1 (is_field reify_ToolsChoice (ix fields_ToolsChoice "Tools") _ _ _) => apply at_ToolsChoice_Tools : hfields.
Global Hint Extern 1 (is_field reify_ToolsChoice (ix fields_ToolsChoice "Components") _ _ _) => apply at_ToolsChoice_Components : hfields.
Global Hint Extern 1 (is_field reify_ToolsChoice (ix fields_ToolsChoice "Services") _ _ _) => apply at_ToolsChoice_Services : hfields.
Global Hint Extern 1 (is_field reify_Vulnerability (ix fields_Vulnerability "BOMRef") _ _ _) => apply at_Vulnerability_BOMRef : hfields.
Global Hint Extern 1 (is_field reify_Vulnerability (ix fields_Vulnerability "ID") _ _ _) => apply at_Vulnerability_ID : hfields.
Global Hint Extern 1 (is_field reify_Vulnerability (ix fields_Vulnerability "Source") _ _ _) => apply at_Vulnerability_Source : hfields.
Global Hint Extern 1 (is_field reify_Vulnerability (ix fields_Vulnerability "Ratings") _ _ _) => apply at_Vulnerability_Ratings : hfields.
Global Hint Extern 1 (is_field reify_Vulnerability (ix fields_Vulnerability "Description") _ _ _) => apply at_Vulnerability_Description : hfields.
Global Hint Extern 1 (is_field reify_Vulnerability (ix fields_Vulnerability "Workaround") _ _ _) => apply at_Vulnerability_Workaround : hfields.
Global Hint Extern 1 (is_field reify_Vulnerability (ix fields_Vulnerability "ProofOfConcept") _ _ _) => apply at_Vulnerability_ProofOfConcept : hfields.
Global Hint Extern 1 (is_field reify_Vulnerability (ix fields_Vulnerability "Rejected") _ _ _) => apply at_Vulnerability_Rejected : hfields.
Global Hint Extern 1 (is_field reify_Vulnerability (ix fields_Vulnerability "Credits") _ _ _) => apply at_Vulnerability_Credits : hfields.
Global Hint Extern 1 (is_field reify_Vulnerability (ix fields_Vulnerability "Tools") _ _ _) => apply at_Vulnerability_Tools : hfields.
Global Hint Extern 1 (is_field reify_Vulnerability (ix fields_Vulnerability "Analysis") _ _ _) => apply at_Vulnerability_Analysis : hfields.
Global Hint Extern 1 (is_field reify_Vulnerability (ix fields_Vulnerability "Properties") _ _ _) => apply at_Vulnerability_Properties : hfields.
Global Hint Extern 1 (is_field reify_VulnerabilityAnalysis (ix fields_VulnerabilityAnalysis "FirstIssued") _ _ _) => apply at_VulnerabilityAnalysis_FirstIssued : hfields.
Global Hint Extern 1 (is_field reify_VulnerabilityAnalysis (ix fields_VulnerabilityAnalysis "LastUpdated") _ _ _) => apply at_VulnerabilityAnalysis_LastUpdated : hfields.
Global Hint Extern 1 (is_field reify_VulnerabilityRating (ix fields_VulnerabilityRating "Source") _ _ _) => apply at_VulnerabilityRating_Source : hfields.
Global Hint Extern 1 (is_field reify_VulnerabilityRating (ix fields_VulnerabilityRating "Method") _ _ _) => apply at_VulnerabilityRating_Method : hfields.
