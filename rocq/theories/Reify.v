(** GENERATED by tools/gen_table.py: [reify_T] lists the fields of a record in the order of
    fields_T (TypeTable.v); [reflect_T] reads them back. *)
From Verif Require Import Base Types Univ.
Local Open Scope string_scope.

Definition reify_Property (x : Property) : val :=
  VStruct [ VStr (Property_Name x);
            VStr (Property_Value x) ].
Definition reflect_Property (v : val) : Property :=
  match v with
  | VStruct [a0; a1] =>
      mkProperty (str_of a0) (str_of a1)
  | _ => zero_Property
  end.

Definition reify_EnvironmentVariableChoice (x : EnvironmentVariableChoice) : val :=
  VStruct [ vptr (reify_Property) (EnvironmentVariableChoice_Property x);
            VStr (EnvironmentVariableChoice_Value x) ].
Definition reflect_EnvironmentVariableChoice (v : val) : EnvironmentVariableChoice :=
  match v with
  | VStruct [a0; a1] =>
      mkEnvironmentVariableChoice (ptr_of (reflect_Property) a0) (str_of a1)
  | _ => zero_EnvironmentVariableChoice
  end.

Definition reify_AttachedText (x : AttachedText) : val :=
  VStruct [ VStr (AttachedText_Content x);
            VStr (AttachedText_ContentType x);
            VStr (AttachedText_Encoding x) ].
Definition reflect_AttachedText (v : val) : AttachedText :=
  match v with
  | VStruct [a0; a1; a2] =>
      mkAttachedText (str_of a0) (str_of a1) (str_of a2)
  | _ => zero_AttachedText
  end.

Definition reify_PostalAddress (x : PostalAddress) : val :=
  VStruct [ VStr (PostalAddress_BOMRef x);
            VStr (PostalAddress_Country x);
            VStr (PostalAddress_Region x);
            VStr (PostalAddress_Locality x);
            VStr (PostalAddress_PostOfficeBoxNumber x);
            VStr (PostalAddress_PostalCode x);
            VStr (PostalAddress_StreetAddress x) ].
Definition reflect_PostalAddress (v : val) : PostalAddress :=
  match v with
  | VStruct [a0; a1; a2; a3; a4; a5; a6] =>
      mkPostalAddress (str_of a0) (str_of a1) (str_of a2) (str_of a3) (str_of a4) (str_of a5) (str_of a6)
  | _ => zero_PostalAddress
  end.

Definition reify_OrganizationalContact (x : OrganizationalContact) : val :=
  VStruct [ VStr (OrganizationalContact_BOMRef x);
            VStr (OrganizationalContact_Name x);
            VStr (OrganizationalContact_Email x);
            VStr (OrganizationalContact_Phone x) ].
Definition reflect_OrganizationalContact (v : val) : OrganizationalContact :=
  match v with
  | VStruct [a0; a1; a2; a3] =>
      mkOrganizationalContact (str_of a0) (str_of a1) (str_of a2) (str_of a3)
  | _ => zero_OrganizationalContact
  end.

Definition reify_OrganizationalEntity (x : OrganizationalEntity) : val :=
  VStruct [ VStr (OrganizationalEntity_BOMRef x);
            VStr (OrganizationalEntity_Name x);
            vptr (reify_PostalAddress) (OrganizationalEntity_Address x);
            vptr (vslice (VStr)) (OrganizationalEntity_URL x);
            vptr (vslice (reify_OrganizationalContact)) (OrganizationalEntity_Contact x) ].
Definition reflect_OrganizationalEntity (v : val) : OrganizationalEntity :=
  match v with
  | VStruct [a0; a1; a2; a3; a4] =>
      mkOrganizationalEntity (str_of a0) (str_of a1) (ptr_of (reflect_PostalAddress) a2) (ptr_of (slice_of (str_of)) a3) (ptr_of (slice_of (reflect_OrganizationalContact)) a4)
  | _ => zero_OrganizationalEntity
  end.

Definition reify_OrganizationalEntityOrContact (x : OrganizationalEntityOrContact) : val :=
  VStruct [ vptr (reify_OrganizationalEntity) (OrganizationalEntityOrContact_Organization x);
            vptr (reify_OrganizationalContact) (OrganizationalEntityOrContact_Individual x) ].
Definition reflect_OrganizationalEntityOrContact (v : val) : OrganizationalEntityOrContact :=
  match v with
  | VStruct [a0; a1] =>
      mkOrganizationalEntityOrContact (ptr_of (reflect_OrganizationalEntity) a0) (ptr_of (reflect_OrganizationalContact) a1)
  | _ => zero_OrganizationalEntityOrContact
  end.

Definition reify_Licensing (x : Licensing) : val :=
  VStruct [ vptr (vslice (VStr)) (Licensing_AltIDs x);
            vptr (reify_OrganizationalEntityOrContact) (Licensing_Licensor x);
            vptr (reify_OrganizationalEntityOrContact) (Licensing_Licensee x);
            vptr (reify_OrganizationalEntityOrContact) (Licensing_Purchaser x);
            VStr (Licensing_PurchaseOrder x);
            vptr (vslice (VStr)) (Licensing_LicenseTypes x);
            VStr (Licensing_LastRenewal x);
            VStr (Licensing_Expiration x) ].
Definition reflect_Licensing (v : val) : Licensing :=
  match v with
  | VStruct [a0; a1; a2; a3; a4; a5; a6; a7] =>
      mkLicensing (ptr_of (slice_of (str_of)) a0) (ptr_of (reflect_OrganizationalEntityOrContact) a1) (ptr_of (reflect_OrganizationalEntityOrContact) a2) (ptr_of (reflect_OrganizationalEntityOrContact) a3) (str_of a4) (ptr_of (slice_of (str_of)) a5) (str_of a6) (str_of a7)
  | _ => zero_Licensing
  end.

Definition reify_License (x : License) : val :=
  VStruct [ VStr (License_BOMRef x);
            VStr (License_ID x);
            VStr (License_Name x);
            VStr (License_Acknowledgement x);
            vptr (reify_AttachedText) (License_Text x);
            VStr (License_URL x);
            vptr (reify_Licensing) (License_Licensing x);
            vptr (vslice (reify_Property)) (License_Properties x) ].
Definition reflect_License (v : val) : License :=
  match v with
  | VStruct [a0; a1; a2; a3; a4; a5; a6; a7] =>
      mkLicense (str_of a0) (str_of a1) (str_of a2) (str_of a3) (ptr_of (reflect_AttachedText) a4) (str_of a5) (ptr_of (reflect_Licensing) a6) (ptr_of (slice_of (reflect_Property)) a7)
  | _ => zero_License
  end.

Definition reify_LicenseExpressionDetail (x : LicenseExpressionDetail) : val :=
  VStruct [ VStr (LicenseExpressionDetail_LicenseIdentifier x);
            VStr (LicenseExpressionDetail_BOMRef x);
            vptr (reify_AttachedText) (LicenseExpressionDetail_Text x);
            VStr (LicenseExpressionDetail_URL x) ].
Definition reflect_LicenseExpressionDetail (v : val) : LicenseExpressionDetail :=
  match v with
  | VStruct [a0; a1; a2; a3] =>
      mkLicenseExpressionDetail (str_of a0) (str_of a1) (ptr_of (reflect_AttachedText) a2) (str_of a3)
  | _ => zero_LicenseExpressionDetail
  end.

Definition reify_LicenseChoice (x : LicenseChoice) : val :=
  VStruct [ vptr (reify_License) (LicenseChoice_License x);
            VStr (LicenseChoice_Expression x);
            vptr (vslice (reify_LicenseExpressionDetail)) (LicenseChoice_ExpressionDetails x);
            vptr (VStr) (LicenseChoice_Acknowledgement x);
            VStr (LicenseChoice_BOMRef x);
            vptr (reify_Licensing) (LicenseChoice_Licensing x);
            vptr (vslice (reify_Property)) (LicenseChoice_Properties x) ].
Definition reflect_LicenseChoice (v : val) : LicenseChoice :=
  match v with
  | VStruct [a0; a1; a2; a3; a4; a5; a6] =>
      mkLicenseChoice (ptr_of (reflect_License) a0) (str_of a1) (ptr_of (slice_of (reflect_LicenseExpressionDetail)) a2) (ptr_of (str_of) a3) (str_of a4) (ptr_of (reflect_Licensing) a5) (ptr_of (slice_of (reflect_Property)) a6)
  | _ => zero_LicenseChoice
  end.

Definition reify_Advisory (x : Advisory) : val :=
  VStruct [ VStr (Advisory_Title x);
            VStr (Advisory_URL x) ].
Definition reflect_Advisory (v : val) : Advisory :=
  match v with
  | VStruct [a0; a1] =>
      mkAdvisory (str_of a0) (str_of a1)
  | _ => zero_Advisory
  end.

Definition reify_AffectedVersions (x : AffectedVersions) : val :=
  VStruct [ VStr (AffectedVersions_Version x);
            VStr (AffectedVersions_Range x);
            VStr (AffectedVersions_Status x) ].
Definition reflect_AffectedVersions (v : val) : AffectedVersions :=
  match v with
  | VStruct [a0; a1; a2] =>
      mkAffectedVersions (str_of a0) (str_of a1) (str_of a2)
  | _ => zero_AffectedVersions
  end.

Definition reify_Affects (x : Affects) : val :=
  VStruct [ VStr (Affects_Ref x);
            vptr (vslice (reify_AffectedVersions)) (Affects_Range x) ].
Definition reflect_Affects (v : val) : Affects :=
  match v with
  | VStruct [a0; a1] =>
      mkAffects (str_of a0) (ptr_of (slice_of (reflect_AffectedVersions)) a1)
  | _ => zero_Affects
  end.

Definition reify_Hash (x : Hash) : val :=
  VStruct [ VStr (Hash_Algorithm x);
            VStr (Hash_Value x) ].
Definition reflect_Hash (v : val) : Hash :=
  match v with
  | VStruct [a0; a1] =>
      mkHash (str_of a0) (str_of a1)
  | _ => zero_Hash
  end.

Definition reify_SWID (x : SWID) : val :=
  VStruct [ vptr (reify_AttachedText) (SWID_Text x);
            VStr (SWID_URL x);
            VStr (SWID_TagID x);
            VStr (SWID_Name x);
            VStr (SWID_Version x);
            vptr (VInt) (SWID_TagVersion x);
            vptr (VBool) (SWID_Patch x) ].
Definition reflect_SWID (v : val) : SWID :=
  match v with
  | VStruct [a0; a1; a2; a3; a4; a5; a6] =>
      mkSWID (ptr_of (reflect_AttachedText) a0) (str_of a1) (str_of a2) (str_of a3) (str_of a4) (ptr_of (int_of) a5) (ptr_of (bool_of) a6)
  | _ => zero_SWID
  end.

Definition reify_IdentifiableAction (x : IdentifiableAction) : val :=
  VStruct [ VStr (IdentifiableAction_Timestamp x);
            VStr (IdentifiableAction_Name x);
            VStr (IdentifiableAction_Email x) ].
Definition reflect_IdentifiableAction (v : val) : IdentifiableAction :=
  match v with
  | VStruct [a0; a1; a2] =>
      mkIdentifiableAction (str_of a0) (str_of a1) (str_of a2)
  | _ => zero_IdentifiableAction
  end.

Definition reify_Commit (x : Commit) : val :=
  VStruct [ VStr (Commit_UID x);
            VStr (Commit_URL x);
            vptr (reify_IdentifiableAction) (Commit_Author x);
            vptr (reify_IdentifiableAction) (Commit_Committer x);
            VStr (Commit_Message x) ].
Definition reflect_Commit (v : val) : Commit :=
  match v with
  | VStruct [a0; a1; a2; a3; a4] =>
      mkCommit (str_of a0) (str_of a1) (ptr_of (reflect_IdentifiableAction) a2) (ptr_of (reflect_IdentifiableAction) a3) (str_of a4)
  | _ => zero_Commit
  end.

Definition reify_Diff (x : Diff) : val :=
  VStruct [ vptr (reify_AttachedText) (Diff_Text x);
            VStr (Diff_URL x) ].
Definition reflect_Diff (v : val) : Diff :=
  match v with
  | VStruct [a0; a1] =>
      mkDiff (ptr_of (reflect_AttachedText) a0) (str_of a1)
  | _ => zero_Diff
  end.

Definition reify_Source (x : Source) : val :=
  VStruct [ VStr (Source_Name x);
            VStr (Source_URL x) ].
Definition reflect_Source (v : val) : Source :=
  match v with
  | VStruct [a0; a1] =>
      mkSource (str_of a0) (str_of a1)
  | _ => zero_Source
  end.

Definition reify_Issue (x : Issue) : val :=
  VStruct [ VStr (Issue_ID x);
            VStr (Issue_Name x);
            VStr (Issue_Description x);
            vptr (reify_Source) (Issue_Source x);
            vptr (vslice (VStr)) (Issue_References x);
            VStr (Issue_Type x) ].
Definition reflect_Issue (v : val) : Issue :=
  match v with
  | VStruct [a0; a1; a2; a3; a4; a5] =>
      mkIssue (str_of a0) (str_of a1) (str_of a2) (ptr_of (reflect_Source) a3) (ptr_of (slice_of (str_of)) a4) (str_of a5)
  | _ => zero_Issue
  end.

Definition reify_Patch (x : Patch) : val :=
  VStruct [ vptr (reify_Diff) (Patch_Diff x);
            vptr (vslice (reify_Issue)) (Patch_Resolves x);
            VStr (Patch_Type x) ].
Definition reflect_Patch (v : val) : Patch :=
  match v with
  | VStruct [a0; a1; a2] =>
      mkPatch (ptr_of (reflect_Diff) a0) (ptr_of (slice_of (reflect_Issue)) a1) (str_of a2)
  | _ => zero_Patch
  end.

Definition reify_Pedigree_ {C} (f : C -> val) (x : Pedigree_ C) : val :=
  VStruct [ vptr (vslice (f)) (Pedigree_Ancestors x);
            vptr (vslice (f)) (Pedigree_Descendants x);
            vptr (vslice (f)) (Pedigree_Variants x);
            vptr (vslice (reify_Commit)) (Pedigree_Commits x);
            vptr (vslice (reify_Patch)) (Pedigree_Patches x);
            VStr (Pedigree_Notes x) ].
Definition reflect_Pedigree_ {C} (f : val -> C) (v : val) : Pedigree_ C :=
  match v with
  | VStruct [a0; a1; a2; a3; a4; a5] =>
      mkPedigree (ptr_of (slice_of (f)) a0) (ptr_of (slice_of (f)) a1) (ptr_of (slice_of (f)) a2) (ptr_of (slice_of (reflect_Commit)) a3) (ptr_of (slice_of (reflect_Patch)) a4) (str_of a5)
  | _ => zero_Pedigree
  end.

Definition reify_ExternalReference (x : ExternalReference) : val :=
  VStruct [ VStr (ExternalReference_URL x);
            VStr (ExternalReference_Comment x);
            vptr (vslice (reify_Hash)) (ExternalReference_Hashes x);
            VStr (ExternalReference_Type x);
            vptr (vslice (reify_Property)) (ExternalReference_Properties x) ].
Definition reflect_ExternalReference (v : val) : ExternalReference :=
  match v with
  | VStruct [a0; a1; a2; a3; a4] =>
      mkExternalReference (str_of a0) (str_of a1) (ptr_of (slice_of (reflect_Hash)) a2) (str_of a3) (ptr_of (slice_of (reflect_Property)) a4)
  | _ => zero_ExternalReference
  end.

Definition reify_EvidenceIdentityMethod (x : EvidenceIdentityMethod) : val :=
  VStruct [ VStr (EvidenceIdentityMethod_Technique x);
            vptr (VFlt) (EvidenceIdentityMethod_Confidence x);
            VStr (EvidenceIdentityMethod_Value x) ].
Definition reflect_EvidenceIdentityMethod (v : val) : EvidenceIdentityMethod :=
  match v with
  | VStruct [a0; a1; a2] =>
      mkEvidenceIdentityMethod (str_of a0) (ptr_of (flt_of) a1) (str_of a2)
  | _ => zero_EvidenceIdentityMethod
  end.

Definition reify_EvidenceIdentity (x : EvidenceIdentity) : val :=
  VStruct [ VStr (EvidenceIdentity_Field x);
            vptr (VFlt) (EvidenceIdentity_Confidence x);
            VStr (EvidenceIdentity_ConcludedValue x);
            vptr (vslice (reify_EvidenceIdentityMethod)) (EvidenceIdentity_Methods x);
            vptr (vslice (VStr)) (EvidenceIdentity_Tools x) ].
Definition reflect_EvidenceIdentity (v : val) : EvidenceIdentity :=
  match v with
  | VStruct [a0; a1; a2; a3; a4] =>
      mkEvidenceIdentity (str_of a0) (ptr_of (flt_of) a1) (str_of a2) (ptr_of (slice_of (reflect_EvidenceIdentityMethod)) a3) (ptr_of (slice_of (str_of)) a4)
  | _ => zero_EvidenceIdentity
  end.

Definition reify_EvidenceIdentityChoice (x : EvidenceIdentityChoice) : val :=
  VStruct [ vptr (reify_EvidenceIdentity) (EvidenceIdentityChoice_Identity x);
            vptr (vslice (reify_EvidenceIdentity)) (EvidenceIdentityChoice_Identities x) ].
Definition reflect_EvidenceIdentityChoice (v : val) : EvidenceIdentityChoice :=
  match v with
  | VStruct [a0; a1] =>
      mkEvidenceIdentityChoice (ptr_of (reflect_EvidenceIdentity) a0) (ptr_of (slice_of (reflect_EvidenceIdentity)) a1)
  | _ => zero_EvidenceIdentityChoice
  end.

Definition reify_EvidenceOccurrence (x : EvidenceOccurrence) : val :=
  VStruct [ VStr (EvidenceOccurrence_BOMRef x);
            VStr (EvidenceOccurrence_Location x);
            vptr (VInt) (EvidenceOccurrence_Line x);
            vptr (VInt) (EvidenceOccurrence_Offset x);
            VStr (EvidenceOccurrence_Symbol x);
            VStr (EvidenceOccurrence_AdditionalContext x) ].
Definition reflect_EvidenceOccurrence (v : val) : EvidenceOccurrence :=
  match v with
  | VStruct [a0; a1; a2; a3; a4; a5] =>
      mkEvidenceOccurrence (str_of a0) (str_of a1) (ptr_of (int_of) a2) (ptr_of (int_of) a3) (str_of a4) (str_of a5)
  | _ => zero_EvidenceOccurrence
  end.

Definition reify_CallstackFrame (x : CallstackFrame) : val :=
  VStruct [ VStr (CallstackFrame_Package x);
            VStr (CallstackFrame_Module x);
            VStr (CallstackFrame_Function x);
            vptr (vslice (VStr)) (CallstackFrame_Parameters x);
            vptr (VInt) (CallstackFrame_Line x);
            vptr (VInt) (CallstackFrame_Column x);
            VStr (CallstackFrame_FullFilename x) ].
Definition reflect_CallstackFrame (v : val) : CallstackFrame :=
  match v with
  | VStruct [a0; a1; a2; a3; a4; a5; a6] =>
      mkCallstackFrame (str_of a0) (str_of a1) (str_of a2) (ptr_of (slice_of (str_of)) a3) (ptr_of (int_of) a4) (ptr_of (int_of) a5) (str_of a6)
  | _ => zero_CallstackFrame
  end.

Definition reify_Callstack (x : Callstack) : val :=
  VStruct [ vptr (vslice (reify_CallstackFrame)) (Callstack_Frames x) ].
Definition reflect_Callstack (v : val) : Callstack :=
  match v with
  | VStruct [a0] =>
      mkCallstack (ptr_of (slice_of (reflect_CallstackFrame)) a0)
  | _ => zero_Callstack
  end.

Definition reify_Copyright (x : Copyright) : val :=
  VStruct [ VStr (Copyright_Text x) ].
Definition reflect_Copyright (v : val) : Copyright :=
  match v with
  | VStruct [a0] =>
      mkCopyright (str_of a0)
  | _ => zero_Copyright
  end.

Definition reify_Evidence (x : Evidence) : val :=
  VStruct [ vptr (reify_EvidenceIdentityChoice) (Evidence_Identity x);
            vptr (vslice (reify_EvidenceOccurrence)) (Evidence_Occurrences x);
            vptr (reify_Callstack) (Evidence_Callstack x);
            vptr (vslice (reify_LicenseChoice)) (Evidence_Licenses x);
            vptr (vslice (reify_Copyright)) (Evidence_Copyright x) ].
Definition reflect_Evidence (v : val) : Evidence :=
  match v with
  | VStruct [a0; a1; a2; a3; a4] =>
      mkEvidence (ptr_of (reflect_EvidenceIdentityChoice) a0) (ptr_of (slice_of (reflect_EvidenceOccurrence)) a1) (ptr_of (reflect_Callstack) a2) (ptr_of (slice_of (reflect_LicenseChoice)) a3) (ptr_of (slice_of (reflect_Copyright)) a4)
  | _ => zero_Evidence
  end.

Definition reify_Note (x : Note) : val :=
  VStruct [ VStr (Note_Locale x);
            reify_AttachedText (Note_Text x) ].
Definition reflect_Note (v : val) : Note :=
  match v with
  | VStruct [a0; a1] =>
      mkNote (str_of a0) (reflect_AttachedText a1)
  | _ => zero_Note
  end.

Definition reify_ReleaseNotes (x : ReleaseNotes) : val :=
  VStruct [ VStr (ReleaseNotes_Type x);
            VStr (ReleaseNotes_Title x);
            VStr (ReleaseNotes_FeaturedImage x);
            VStr (ReleaseNotes_SocialImage x);
            VStr (ReleaseNotes_Description x);
            VStr (ReleaseNotes_Timestamp x);
            vptr (vslice (VStr)) (ReleaseNotes_Aliases x);
            vptr (vslice (VStr)) (ReleaseNotes_Tags x);
            vptr (vslice (reify_Issue)) (ReleaseNotes_Resolves x);
            vptr (vslice (reify_Note)) (ReleaseNotes_Notes x);
            vptr (vslice (reify_Property)) (ReleaseNotes_Properties x) ].
Definition reflect_ReleaseNotes (v : val) : ReleaseNotes :=
  match v with
  | VStruct [a0; a1; a2; a3; a4; a5; a6; a7; a8; a9; a10] =>
      mkReleaseNotes (str_of a0) (str_of a1) (str_of a2) (str_of a3) (str_of a4) (str_of a5) (ptr_of (slice_of (str_of)) a6) (ptr_of (slice_of (str_of)) a7) (ptr_of (slice_of (reflect_Issue)) a8) (ptr_of (slice_of (reflect_Note)) a9) (ptr_of (slice_of (reflect_Property)) a10)
  | _ => zero_ReleaseNotes
  end.

Definition reify_MLModelParametersApproach (x : MLModelParametersApproach) : val :=
  VStruct [ VStr (MLModelParametersApproach_Type x) ].
Definition reflect_MLModelParametersApproach (v : val) : MLModelParametersApproach :=
  match v with
  | VStruct [a0] =>
      mkMLModelParametersApproach (str_of a0)
  | _ => zero_MLModelParametersApproach
  end.

Definition reify_ComponentDataContents (x : ComponentDataContents) : val :=
  VStruct [ vptr (reify_AttachedText) (ComponentDataContents_Attachment x);
            VStr (ComponentDataContents_URL x);
            vptr (vslice (reify_Property)) (ComponentDataContents_Properties x) ].
Definition reflect_ComponentDataContents (v : val) : ComponentDataContents :=
  match v with
  | VStruct [a0; a1; a2] =>
      mkComponentDataContents (ptr_of (reflect_AttachedText) a0) (str_of a1) (ptr_of (slice_of (reflect_Property)) a2)
  | _ => zero_ComponentDataContents
  end.

Definition reify_ComponentDataGraphic (x : ComponentDataGraphic) : val :=
  VStruct [ VStr (ComponentDataGraphic_Name x);
            vptr (reify_AttachedText) (ComponentDataGraphic_Image x) ].
Definition reflect_ComponentDataGraphic (v : val) : ComponentDataGraphic :=
  match v with
  | VStruct [a0; a1] =>
      mkComponentDataGraphic (str_of a0) (ptr_of (reflect_AttachedText) a1)
  | _ => zero_ComponentDataGraphic
  end.

Definition reify_ComponentDataGraphics (x : ComponentDataGraphics) : val :=
  VStruct [ VStr (ComponentDataGraphics_Description x);
            vptr (vslice (reify_ComponentDataGraphic)) (ComponentDataGraphics_Collection x) ].
Definition reflect_ComponentDataGraphics (v : val) : ComponentDataGraphics :=
  match v with
  | VStruct [a0; a1] =>
      mkComponentDataGraphics (str_of a0) (ptr_of (slice_of (reflect_ComponentDataGraphic)) a1)
  | _ => zero_ComponentDataGraphics
  end.

Definition reify_ComponentDataGovernanceResponsibleParty (x : ComponentDataGovernanceResponsibleParty) : val :=
  VStruct [ vptr (reify_OrganizationalEntity) (ComponentDataGovernanceResponsibleParty_Organization x);
            vptr (reify_OrganizationalContact) (ComponentDataGovernanceResponsibleParty_Contact x) ].
Definition reflect_ComponentDataGovernanceResponsibleParty (v : val) : ComponentDataGovernanceResponsibleParty :=
  match v with
  | VStruct [a0; a1] =>
      mkComponentDataGovernanceResponsibleParty (ptr_of (reflect_OrganizationalEntity) a0) (ptr_of (reflect_OrganizationalContact) a1)
  | _ => zero_ComponentDataGovernanceResponsibleParty
  end.

Definition reify_DataGovernance (x : DataGovernance) : val :=
  VStruct [ vptr (vslice (reify_ComponentDataGovernanceResponsibleParty)) (DataGovernance_Custodians x);
            vptr (vslice (reify_ComponentDataGovernanceResponsibleParty)) (DataGovernance_Stewards x);
            vptr (vslice (reify_ComponentDataGovernanceResponsibleParty)) (DataGovernance_Owners x) ].
Definition reflect_DataGovernance (v : val) : DataGovernance :=
  match v with
  | VStruct [a0; a1; a2] =>
      mkDataGovernance (ptr_of (slice_of (reflect_ComponentDataGovernanceResponsibleParty)) a0) (ptr_of (slice_of (reflect_ComponentDataGovernanceResponsibleParty)) a1) (ptr_of (slice_of (reflect_ComponentDataGovernanceResponsibleParty)) a2)
  | _ => zero_DataGovernance
  end.

Definition reify_ComponentData (x : ComponentData) : val :=
  VStruct [ VStr (ComponentData_BOMRef x);
            VStr (ComponentData_Type x);
            VStr (ComponentData_Name x);
            vptr (reify_ComponentDataContents) (ComponentData_Contents x);
            VStr (ComponentData_Classification x);
            vptr (vslice (VStr)) (ComponentData_SensitiveData x);
            vptr (reify_ComponentDataGraphics) (ComponentData_Graphics x);
            VStr (ComponentData_Description x);
            vptr (reify_DataGovernance) (ComponentData_Governance x) ].
Definition reflect_ComponentData (v : val) : ComponentData :=
  match v with
  | VStruct [a0; a1; a2; a3; a4; a5; a6; a7; a8] =>
      mkComponentData (str_of a0) (str_of a1) (str_of a2) (ptr_of (reflect_ComponentDataContents) a3) (str_of a4) (ptr_of (slice_of (str_of)) a5) (ptr_of (reflect_ComponentDataGraphics) a6) (str_of a7) (ptr_of (reflect_DataGovernance) a8)
  | _ => zero_ComponentData
  end.

Definition reify_MLDatasetChoice (x : MLDatasetChoice) : val :=
  VStruct [ VStr (MLDatasetChoice_Ref x);
            vptr (reify_ComponentData) (MLDatasetChoice_ComponentData x) ].
Definition reflect_MLDatasetChoice (v : val) : MLDatasetChoice :=
  match v with
  | VStruct [a0; a1] =>
      mkMLDatasetChoice (str_of a0) (ptr_of (reflect_ComponentData) a1)
  | _ => zero_MLDatasetChoice
  end.

Definition reify_MLInputOutputParameters (x : MLInputOutputParameters) : val :=
  VStruct [ VStr (MLInputOutputParameters_Format x) ].
Definition reflect_MLInputOutputParameters (v : val) : MLInputOutputParameters :=
  match v with
  | VStruct [a0] =>
      mkMLInputOutputParameters (str_of a0)
  | _ => zero_MLInputOutputParameters
  end.

Definition reify_MLModelParameters (x : MLModelParameters) : val :=
  VStruct [ vptr (reify_MLModelParametersApproach) (MLModelParameters_Approach x);
            VStr (MLModelParameters_Task x);
            VStr (MLModelParameters_ArchitectureFamily x);
            VStr (MLModelParameters_ModelArchitecture x);
            vptr (vslice (reify_MLDatasetChoice)) (MLModelParameters_Datasets x);
            vptr (vslice (reify_MLInputOutputParameters)) (MLModelParameters_Inputs x);
            vptr (vslice (reify_MLInputOutputParameters)) (MLModelParameters_Outputs x) ].
Definition reflect_MLModelParameters (v : val) : MLModelParameters :=
  match v with
  | VStruct [a0; a1; a2; a3; a4; a5; a6] =>
      mkMLModelParameters (ptr_of (reflect_MLModelParametersApproach) a0) (str_of a1) (str_of a2) (str_of a3) (ptr_of (slice_of (reflect_MLDatasetChoice)) a4) (ptr_of (slice_of (reflect_MLInputOutputParameters)) a5) (ptr_of (slice_of (reflect_MLInputOutputParameters)) a6)
  | _ => zero_MLModelParameters
  end.

Definition reify_MLPerformanceMetricConfidenceInterval (x : MLPerformanceMetricConfidenceInterval) : val :=
  VStruct [ VStr (MLPerformanceMetricConfidenceInterval_LowerBound x);
            VStr (MLPerformanceMetricConfidenceInterval_UpperBound x) ].
Definition reflect_MLPerformanceMetricConfidenceInterval (v : val) : MLPerformanceMetricConfidenceInterval :=
  match v with
  | VStruct [a0; a1] =>
      mkMLPerformanceMetricConfidenceInterval (str_of a0) (str_of a1)
  | _ => zero_MLPerformanceMetricConfidenceInterval
  end.

Definition reify_MLPerformanceMetric (x : MLPerformanceMetric) : val :=
  VStruct [ VStr (MLPerformanceMetric_Type x);
            VStr (MLPerformanceMetric_Value x);
            VStr (MLPerformanceMetric_Slice x);
            vptr (reify_MLPerformanceMetricConfidenceInterval) (MLPerformanceMetric_ConfidenceInterval x) ].
Definition reflect_MLPerformanceMetric (v : val) : MLPerformanceMetric :=
  match v with
  | VStruct [a0; a1; a2; a3] =>
      mkMLPerformanceMetric (str_of a0) (str_of a1) (str_of a2) (ptr_of (reflect_MLPerformanceMetricConfidenceInterval) a3)
  | _ => zero_MLPerformanceMetric
  end.

Definition reify_MLQuantitativeAnalysis (x : MLQuantitativeAnalysis) : val :=
  VStruct [ vptr (vslice (reify_MLPerformanceMetric)) (MLQuantitativeAnalysis_PerformanceMetrics x);
            vptr (reify_ComponentDataGraphics) (MLQuantitativeAnalysis_Graphics x) ].
Definition reflect_MLQuantitativeAnalysis (v : val) : MLQuantitativeAnalysis :=
  match v with
  | VStruct [a0; a1] =>
      mkMLQuantitativeAnalysis (ptr_of (slice_of (reflect_MLPerformanceMetric)) a0) (ptr_of (reflect_ComponentDataGraphics) a1)
  | _ => zero_MLQuantitativeAnalysis
  end.

Definition reify_MLModelCardEthicalConsideration (x : MLModelCardEthicalConsideration) : val :=
  VStruct [ VStr (MLModelCardEthicalConsideration_Name x);
            VStr (MLModelCardEthicalConsideration_MitigationStrategy x) ].
Definition reflect_MLModelCardEthicalConsideration (v : val) : MLModelCardEthicalConsideration :=
  match v with
  | VStruct [a0; a1] =>
      mkMLModelCardEthicalConsideration (str_of a0) (str_of a1)
  | _ => zero_MLModelCardEthicalConsideration
  end.

Definition reify_MLModelEnergyMeasure (x : MLModelEnergyMeasure) : val :=
  VStruct [ VFlt (MLModelEnergyMeasure_Value x);
            VStr (MLModelEnergyMeasure_Unit x) ].
Definition reflect_MLModelEnergyMeasure (v : val) : MLModelEnergyMeasure :=
  match v with
  | VStruct [a0; a1] =>
      mkMLModelEnergyMeasure (flt_of a0) (str_of a1)
  | _ => zero_MLModelEnergyMeasure
  end.

Definition reify_MLModelEnergyProvider (x : MLModelEnergyProvider) : val :=
  VStruct [ VStr (MLModelEnergyProvider_BOMRef x);
            VStr (MLModelEnergyProvider_Description x);
            vptr (reify_OrganizationalEntity) (MLModelEnergyProvider_Organization x);
            VStr (MLModelEnergyProvider_EnergySource x);
            vptr (reify_MLModelEnergyMeasure) (MLModelEnergyProvider_EnergyProvided x);
            vptr (vslice (reify_ExternalReference)) (MLModelEnergyProvider_ExternalReferences x) ].
Definition reflect_MLModelEnergyProvider (v : val) : MLModelEnergyProvider :=
  match v with
  | VStruct [a0; a1; a2; a3; a4; a5] =>
      mkMLModelEnergyProvider (str_of a0) (str_of a1) (ptr_of (reflect_OrganizationalEntity) a2) (str_of a3) (ptr_of (reflect_MLModelEnergyMeasure) a4) (ptr_of (slice_of (reflect_ExternalReference)) a5)
  | _ => zero_MLModelEnergyProvider
  end.

Definition reify_MLModelCO2Measure (x : MLModelCO2Measure) : val :=
  VStruct [ VFlt (MLModelCO2Measure_Value x);
            VStr (MLModelCO2Measure_Unit x) ].
Definition reflect_MLModelCO2Measure (v : val) : MLModelCO2Measure :=
  match v with
  | VStruct [a0; a1] =>
      mkMLModelCO2Measure (flt_of a0) (str_of a1)
  | _ => zero_MLModelCO2Measure
  end.

Definition reify_MLModelEnergyConsumption (x : MLModelEnergyConsumption) : val :=
  VStruct [ VStr (MLModelEnergyConsumption_Activity x);
            vptr (vslice (reify_MLModelEnergyProvider)) (MLModelEnergyConsumption_EnergyProviders x);
            reify_MLModelEnergyMeasure (MLModelEnergyConsumption_ActivityEnergyCost x);
            vptr (reify_MLModelCO2Measure) (MLModelEnergyConsumption_CO2CostEquivalent x);
            vptr (reify_MLModelCO2Measure) (MLModelEnergyConsumption_CO2CostOffset x);
            vptr (vslice (reify_Property)) (MLModelEnergyConsumption_Properties x) ].
Definition reflect_MLModelEnergyConsumption (v : val) : MLModelEnergyConsumption :=
  match v with
  | VStruct [a0; a1; a2; a3; a4; a5] =>
      mkMLModelEnergyConsumption (str_of a0) (ptr_of (slice_of (reflect_MLModelEnergyProvider)) a1) (reflect_MLModelEnergyMeasure a2) (ptr_of (reflect_MLModelCO2Measure) a3) (ptr_of (reflect_MLModelCO2Measure) a4) (ptr_of (slice_of (reflect_Property)) a5)
  | _ => zero_MLModelEnergyConsumption
  end.

Definition reify_MLModelCardEnvironmentalConsiderations (x : MLModelCardEnvironmentalConsiderations) : val :=
  VStruct [ vptr (vslice (reify_MLModelEnergyConsumption)) (MLModelCardEnvironmentalConsiderations_EnergyConsumptions x);
            vptr (vslice (reify_Property)) (MLModelCardEnvironmentalConsiderations_Properties x) ].
Definition reflect_MLModelCardEnvironmentalConsiderations (v : val) : MLModelCardEnvironmentalConsiderations :=
  match v with
  | VStruct [a0; a1] =>
      mkMLModelCardEnvironmentalConsiderations (ptr_of (slice_of (reflect_MLModelEnergyConsumption)) a0) (ptr_of (slice_of (reflect_Property)) a1)
  | _ => zero_MLModelCardEnvironmentalConsiderations
  end.

Definition reify_MLModelCardFairnessAssessment (x : MLModelCardFairnessAssessment) : val :=
  VStruct [ VStr (MLModelCardFairnessAssessment_GroupAtRisk x);
            VStr (MLModelCardFairnessAssessment_Benefits x);
            VStr (MLModelCardFairnessAssessment_Harms x);
            VStr (MLModelCardFairnessAssessment_MitigationStrategy x) ].
Definition reflect_MLModelCardFairnessAssessment (v : val) : MLModelCardFairnessAssessment :=
  match v with
  | VStruct [a0; a1; a2; a3] =>
      mkMLModelCardFairnessAssessment (str_of a0) (str_of a1) (str_of a2) (str_of a3)
  | _ => zero_MLModelCardFairnessAssessment
  end.

Definition reify_MLModelCardConsiderations (x : MLModelCardConsiderations) : val :=
  VStruct [ vptr (vslice (VStr)) (MLModelCardConsiderations_Users x);
            vptr (vslice (VStr)) (MLModelCardConsiderations_UseCases x);
            vptr (vslice (VStr)) (MLModelCardConsiderations_TechnicalLimitations x);
            vptr (vslice (VStr)) (MLModelCardConsiderations_PerformanceTradeoffs x);
            vptr (vslice (reify_MLModelCardEthicalConsideration)) (MLModelCardConsiderations_EthicalConsiderations x);
            vptr (reify_MLModelCardEnvironmentalConsiderations) (MLModelCardConsiderations_EnvironmentalConsiderations x);
            vptr (vslice (reify_MLModelCardFairnessAssessment)) (MLModelCardConsiderations_FairnessAssessments x) ].
Definition reflect_MLModelCardConsiderations (v : val) : MLModelCardConsiderations :=
  match v with
  | VStruct [a0; a1; a2; a3; a4; a5; a6] =>
      mkMLModelCardConsiderations (ptr_of (slice_of (str_of)) a0) (ptr_of (slice_of (str_of)) a1) (ptr_of (slice_of (str_of)) a2) (ptr_of (slice_of (str_of)) a3) (ptr_of (slice_of (reflect_MLModelCardEthicalConsideration)) a4) (ptr_of (reflect_MLModelCardEnvironmentalConsiderations) a5) (ptr_of (slice_of (reflect_MLModelCardFairnessAssessment)) a6)
  | _ => zero_MLModelCardConsiderations
  end.

Definition reify_MLModelCard (x : MLModelCard) : val :=
  VStruct [ VStr (MLModelCard_BOMRef x);
            vptr (reify_MLModelParameters) (MLModelCard_ModelParameters x);
            vptr (reify_MLQuantitativeAnalysis) (MLModelCard_QuantitativeAnalysis x);
            vptr (reify_MLModelCardConsiderations) (MLModelCard_Considerations x) ].
Definition reflect_MLModelCard (v : val) : MLModelCard :=
  match v with
  | VStruct [a0; a1; a2; a3] =>
      mkMLModelCard (str_of a0) (ptr_of (reflect_MLModelParameters) a1) (ptr_of (reflect_MLQuantitativeAnalysis) a2) (ptr_of (reflect_MLModelCardConsiderations) a3)
  | _ => zero_MLModelCard
  end.

Definition reify_CryptoAlgorithmProperties (x : CryptoAlgorithmProperties) : val :=
  VStruct [ VStr (CryptoAlgorithmProperties_Primitive x);
            VStr (CryptoAlgorithmProperties_ParameterSetIdentifier x);
            VStr (CryptoAlgorithmProperties_AlgorithmFamily x);
            VStr (CryptoAlgorithmProperties_Curve x);
            VStr (CryptoAlgorithmProperties_EllipticCurve x);
            VStr (CryptoAlgorithmProperties_ExecutionEnvironment x);
            VStr (CryptoAlgorithmProperties_ImplementationPlatform x);
            vptr (vslice (VStr)) (CryptoAlgorithmProperties_CertificationLevel x);
            VStr (CryptoAlgorithmProperties_Mode x);
            VStr (CryptoAlgorithmProperties_Padding x);
            vptr (vslice (VStr)) (CryptoAlgorithmProperties_CryptoFunctions x);
            vptr (VInt) (CryptoAlgorithmProperties_ClassicalSecurityLevel x);
            vptr (VInt) (CryptoAlgorithmProperties_NistQuantumSecurityLevel x) ].
Definition reflect_CryptoAlgorithmProperties (v : val) : CryptoAlgorithmProperties :=
  match v with
  | VStruct [a0; a1; a2; a3; a4; a5; a6; a7; a8; a9; a10; a11; a12] =>
      mkCryptoAlgorithmProperties (str_of a0) (str_of a1) (str_of a2) (str_of a3) (str_of a4) (str_of a5) (str_of a6) (ptr_of (slice_of (str_of)) a7) (str_of a8) (str_of a9) (ptr_of (slice_of (str_of)) a10) (ptr_of (int_of) a11) (ptr_of (int_of) a12)
  | _ => zero_CryptoAlgorithmProperties
  end.

Definition reify_PredefinedCertificateState (x : PredefinedCertificateState) : val :=
  VStruct [ VStr (PredefinedCertificateState_State x);
            VStr (PredefinedCertificateState_Reason x) ].
Definition reflect_PredefinedCertificateState (v : val) : PredefinedCertificateState :=
  match v with
  | VStruct [a0; a1] =>
      mkPredefinedCertificateState (str_of a0) (str_of a1)
  | _ => zero_PredefinedCertificateState
  end.

Definition reify_CustomCertificateState (x : CustomCertificateState) : val :=
  VStruct [ VStr (CustomCertificateState_Name x);
            VStr (CustomCertificateState_Description x);
            VStr (CustomCertificateState_Reason x) ].
Definition reflect_CustomCertificateState (v : val) : CustomCertificateState :=
  match v with
  | VStruct [a0; a1; a2] =>
      mkCustomCertificateState (str_of a0) (str_of a1) (str_of a2)
  | _ => zero_CustomCertificateState
  end.

Definition reify_CertificateState (x : CertificateState) : val :=
  VStruct [ vptr (reify_PredefinedCertificateState) (CertificateState_Predefined x);
            vptr (reify_CustomCertificateState) (CertificateState_Custom x) ].
Definition reflect_CertificateState (v : val) : CertificateState :=
  match v with
  | VStruct [a0; a1] =>
      mkCertificateState (ptr_of (reflect_PredefinedCertificateState) a0) (ptr_of (reflect_CustomCertificateState) a1)
  | _ => zero_CertificateState
  end.

Definition reify_CommonCertificateExtension (x : CommonCertificateExtension) : val :=
  VStruct [ VStr (CommonCertificateExtension_Name x);
            VStr (CommonCertificateExtension_Value x) ].
Definition reflect_CommonCertificateExtension (v : val) : CommonCertificateExtension :=
  match v with
  | VStruct [a0; a1] =>
      mkCommonCertificateExtension (str_of a0) (str_of a1)
  | _ => zero_CommonCertificateExtension
  end.

Definition reify_CustomCertificateExtension (x : CustomCertificateExtension) : val :=
  VStruct [ VStr (CustomCertificateExtension_Name x);
            VStr (CustomCertificateExtension_Value x) ].
Definition reflect_CustomCertificateExtension (v : val) : CustomCertificateExtension :=
  match v with
  | VStruct [a0; a1] =>
      mkCustomCertificateExtension (str_of a0) (str_of a1)
  | _ => zero_CustomCertificateExtension
  end.

Definition reify_CertificateExtension (x : CertificateExtension) : val :=
  VStruct [ vptr (reify_CommonCertificateExtension) (CertificateExtension_Common x);
            vptr (reify_CustomCertificateExtension) (CertificateExtension_Custom x) ].
Definition reflect_CertificateExtension (v : val) : CertificateExtension :=
  match v with
  | VStruct [a0; a1] =>
      mkCertificateExtension (ptr_of (reflect_CommonCertificateExtension) a0) (ptr_of (reflect_CustomCertificateExtension) a1)
  | _ => zero_CertificateExtension
  end.

Definition reify_RelatedCryptographicAsset (x : RelatedCryptographicAsset) : val :=
  VStruct [ VStr (RelatedCryptographicAsset_Type x);
            VStr (RelatedCryptographicAsset_Ref x) ].
Definition reflect_RelatedCryptographicAsset (v : val) : RelatedCryptographicAsset :=
  match v with
  | VStruct [a0; a1] =>
      mkRelatedCryptographicAsset (str_of a0) (str_of a1)
  | _ => zero_RelatedCryptographicAsset
  end.

Definition reify_CertificateProperties (x : CertificateProperties) : val :=
  VStruct [ VStr (CertificateProperties_SerialNumber x);
            VStr (CertificateProperties_SubjectName x);
            VStr (CertificateProperties_IssuerName x);
            VStr (CertificateProperties_NotValidBefore x);
            VStr (CertificateProperties_NotValidAfter x);
            VStr (CertificateProperties_SignatureAlgorithmRef x);
            VStr (CertificateProperties_SubjectPublicKeyRef x);
            VStr (CertificateProperties_CertificateFormat x);
            VStr (CertificateProperties_CertificateExtension x);
            VStr (CertificateProperties_CertificateFileExtension x);
            vptr (reify_Hash) (CertificateProperties_Fingerprint x);
            vptr (vslice (reify_CertificateState)) (CertificateProperties_CertificateState x);
            vptr (vslice (reify_CertificateExtension)) (CertificateProperties_CertificateExtensions x);
            vptr (vslice (reify_RelatedCryptographicAsset)) (CertificateProperties_RelatedCryptographicAssets x);
            VStr (CertificateProperties_CreationDate x);
            VStr (CertificateProperties_ActivationDate x);
            VStr (CertificateProperties_DeactivationDate x);
            VStr (CertificateProperties_RevocationDate x);
            VStr (CertificateProperties_DestructionDate x) ].
Definition reflect_CertificateProperties (v : val) : CertificateProperties :=
  match v with
  | VStruct [a0; a1; a2; a3; a4; a5; a6; a7; a8; a9; a10; a11; a12; a13; a14; a15; a16; a17; a18] =>
      mkCertificateProperties (str_of a0) (str_of a1) (str_of a2) (str_of a3) (str_of a4) (str_of a5) (str_of a6) (str_of a7) (str_of a8) (str_of a9) (ptr_of (reflect_Hash) a10) (ptr_of (slice_of (reflect_CertificateState)) a11) (ptr_of (slice_of (reflect_CertificateExtension)) a12) (ptr_of (slice_of (reflect_RelatedCryptographicAsset)) a13) (str_of a14) (str_of a15) (str_of a16) (str_of a17) (str_of a18)
  | _ => zero_CertificateProperties
  end.

Definition reify_SecuredBy (x : SecuredBy) : val :=
  VStruct [ VStr (SecuredBy_Mechanism x);
            VStr (SecuredBy_AlgorithmRef x) ].
Definition reflect_SecuredBy (v : val) : SecuredBy :=
  match v with
  | VStruct [a0; a1] =>
      mkSecuredBy (str_of a0) (str_of a1)
  | _ => zero_SecuredBy
  end.

Definition reify_RelatedCryptoMaterialProperties (x : RelatedCryptoMaterialProperties) : val :=
  VStruct [ VStr (RelatedCryptoMaterialProperties_Type x);
            VStr (RelatedCryptoMaterialProperties_ID x);
            VStr (RelatedCryptoMaterialProperties_State x);
            VStr (RelatedCryptoMaterialProperties_AlgorithmRef x);
            VStr (RelatedCryptoMaterialProperties_CreationDate x);
            VStr (RelatedCryptoMaterialProperties_ActivationDate x);
            VStr (RelatedCryptoMaterialProperties_UpdateDate x);
            VStr (RelatedCryptoMaterialProperties_ExpirationDate x);
            VStr (RelatedCryptoMaterialProperties_Value x);
            vptr (VInt) (RelatedCryptoMaterialProperties_Size x);
            VStr (RelatedCryptoMaterialProperties_Format x);
            vptr (reify_SecuredBy) (RelatedCryptoMaterialProperties_SecuredBy x);
            vptr (reify_Hash) (RelatedCryptoMaterialProperties_Fingerprint x);
            vptr (vslice (reify_RelatedCryptographicAsset)) (RelatedCryptoMaterialProperties_RelatedCryptographicAssets x) ].
Definition reflect_RelatedCryptoMaterialProperties (v : val) : RelatedCryptoMaterialProperties :=
  match v with
  | VStruct [a0; a1; a2; a3; a4; a5; a6; a7; a8; a9; a10; a11; a12; a13] =>
      mkRelatedCryptoMaterialProperties (str_of a0) (str_of a1) (str_of a2) (str_of a3) (str_of a4) (str_of a5) (str_of a6) (str_of a7) (str_of a8) (ptr_of (int_of) a9) (str_of a10) (ptr_of (reflect_SecuredBy) a11) (ptr_of (reflect_Hash) a12) (ptr_of (slice_of (reflect_RelatedCryptographicAsset)) a13)
  | _ => zero_RelatedCryptoMaterialProperties
  end.

Definition reify_CipherSuite (x : CipherSuite) : val :=
  VStruct [ VStr (CipherSuite_Name x);
            vptr (vslice (VStr)) (CipherSuite_Algorithms x);
            vptr (vslice (VStr)) (CipherSuite_Identifiers x);
            vptr (vslice (VStr)) (CipherSuite_TLSGroups x);
            vptr (vslice (VStr)) (CipherSuite_TLSSignatureSchemes x) ].
Definition reflect_CipherSuite (v : val) : CipherSuite :=
  match v with
  | VStruct [a0; a1; a2; a3; a4] =>
      mkCipherSuite (str_of a0) (ptr_of (slice_of (str_of)) a1) (ptr_of (slice_of (str_of)) a2) (ptr_of (slice_of (str_of)) a3) (ptr_of (slice_of (str_of)) a4)
  | _ => zero_CipherSuite
  end.

Definition reify_IKEv2Enc (x : IKEv2Enc) : val :=
  VStruct [ VStr (IKEv2Enc_BOMRef x);
            VStr (IKEv2Enc_Name x);
            vptr (VInt) (IKEv2Enc_KeyLength x);
            VStr (IKEv2Enc_Algorithm x) ].
Definition reflect_IKEv2Enc (v : val) : IKEv2Enc :=
  match v with
  | VStruct [a0; a1; a2; a3] =>
      mkIKEv2Enc (str_of a0) (str_of a1) (ptr_of (int_of) a2) (str_of a3)
  | _ => zero_IKEv2Enc
  end.

Definition reify_IKEv2Prf (x : IKEv2Prf) : val :=
  VStruct [ VStr (IKEv2Prf_BOMRef x);
            VStr (IKEv2Prf_Name x);
            VStr (IKEv2Prf_Algorithm x) ].
Definition reflect_IKEv2Prf (v : val) : IKEv2Prf :=
  match v with
  | VStruct [a0; a1; a2] =>
      mkIKEv2Prf (str_of a0) (str_of a1) (str_of a2)
  | _ => zero_IKEv2Prf
  end.

Definition reify_IKEv2Integ (x : IKEv2Integ) : val :=
  VStruct [ VStr (IKEv2Integ_BOMRef x);
            VStr (IKEv2Integ_Name x);
            VStr (IKEv2Integ_Algorithm x) ].
Definition reflect_IKEv2Integ (v : val) : IKEv2Integ :=
  match v with
  | VStruct [a0; a1; a2] =>
      mkIKEv2Integ (str_of a0) (str_of a1) (str_of a2)
  | _ => zero_IKEv2Integ
  end.

Definition reify_IKEv2Ke (x : IKEv2Ke) : val :=
  VStruct [ VStr (IKEv2Ke_BOMRef x);
            vptr (VInt) (IKEv2Ke_Group x);
            VStr (IKEv2Ke_Algorithm x) ].
Definition reflect_IKEv2Ke (v : val) : IKEv2Ke :=
  match v with
  | VStruct [a0; a1; a2] =>
      mkIKEv2Ke (str_of a0) (ptr_of (int_of) a1) (str_of a2)
  | _ => zero_IKEv2Ke
  end.

Definition reify_IKEv2Auth (x : IKEv2Auth) : val :=
  VStruct [ VStr (IKEv2Auth_BOMRef x);
            VStr (IKEv2Auth_Name x);
            VStr (IKEv2Auth_Algorithm x) ].
Definition reflect_IKEv2Auth (v : val) : IKEv2Auth :=
  match v with
  | VStruct [a0; a1; a2] =>
      mkIKEv2Auth (str_of a0) (str_of a1) (str_of a2)
  | _ => zero_IKEv2Auth
  end.

Definition reify_IKEv2TransformTypes (x : IKEv2TransformTypes) : val :=
  VStruct [ vptr (vslice (reify_IKEv2Enc)) (IKEv2TransformTypes_Encr x);
            vptr (vslice (reify_IKEv2Prf)) (IKEv2TransformTypes_PRF x);
            vptr (vslice (reify_IKEv2Integ)) (IKEv2TransformTypes_Integ x);
            vptr (vslice (reify_IKEv2Ke)) (IKEv2TransformTypes_KE x);
            VBool (IKEv2TransformTypes_ESN x);
            vptr (vslice (reify_IKEv2Auth)) (IKEv2TransformTypes_Auth x) ].
Definition reflect_IKEv2TransformTypes (v : val) : IKEv2TransformTypes :=
  match v with
  | VStruct [a0; a1; a2; a3; a4; a5] =>
      mkIKEv2TransformTypes (ptr_of (slice_of (reflect_IKEv2Enc)) a0) (ptr_of (slice_of (reflect_IKEv2Prf)) a1) (ptr_of (slice_of (reflect_IKEv2Integ)) a2) (ptr_of (slice_of (reflect_IKEv2Ke)) a3) (bool_of a4) (ptr_of (slice_of (reflect_IKEv2Auth)) a5)
  | _ => zero_IKEv2TransformTypes
  end.

Definition reify_CryptoProtocolProperties (x : CryptoProtocolProperties) : val :=
  VStruct [ VStr (CryptoProtocolProperties_Type x);
            VStr (CryptoProtocolProperties_Version x);
            vptr (vslice (reify_CipherSuite)) (CryptoProtocolProperties_CipherSuites x);
            vptr (reify_IKEv2TransformTypes) (CryptoProtocolProperties_IKEv2TransformTypes x);
            vptr (vslice (VStr)) (CryptoProtocolProperties_CryptoRefArray x);
            vptr (vslice (reify_RelatedCryptographicAsset)) (CryptoProtocolProperties_RelatedCryptographicAssets x) ].
Definition reflect_CryptoProtocolProperties (v : val) : CryptoProtocolProperties :=
  match v with
  | VStruct [a0; a1; a2; a3; a4; a5] =>
      mkCryptoProtocolProperties (str_of a0) (str_of a1) (ptr_of (slice_of (reflect_CipherSuite)) a2) (ptr_of (reflect_IKEv2TransformTypes) a3) (ptr_of (slice_of (str_of)) a4) (ptr_of (slice_of (reflect_RelatedCryptographicAsset)) a5)
  | _ => zero_CryptoProtocolProperties
  end.

Definition reify_CryptoProperties (x : CryptoProperties) : val :=
  VStruct [ VStr (CryptoProperties_AssetType x);
            vptr (reify_CryptoAlgorithmProperties) (CryptoProperties_AlgorithmProperties x);
            vptr (reify_CertificateProperties) (CryptoProperties_CertificateProperties x);
            vptr (reify_RelatedCryptoMaterialProperties) (CryptoProperties_RelatedCryptoMaterialProperties x);
            vptr (reify_CryptoProtocolProperties) (CryptoProperties_ProtocolProperties x);
            VStr (CryptoProperties_OID x) ].
Definition reflect_CryptoProperties (v : val) : CryptoProperties :=
  match v with
  | VStruct [a0; a1; a2; a3; a4; a5] =>
      mkCryptoProperties (str_of a0) (ptr_of (reflect_CryptoAlgorithmProperties) a1) (ptr_of (reflect_CertificateProperties) a2) (ptr_of (reflect_RelatedCryptoMaterialProperties) a3) (ptr_of (reflect_CryptoProtocolProperties) a4) (str_of a5)
  | _ => zero_CryptoProperties
  end.

Definition reify_AsserterChoice (x : AsserterChoice) : val :=
  VStruct [ vptr (reify_OrganizationalEntity) (AsserterChoice_Organization x);
            vptr (reify_OrganizationalContact) (AsserterChoice_Individual x);
            vptr (VStr) (AsserterChoice_BOMRef x) ].
Definition reflect_AsserterChoice (v : val) : AsserterChoice :=
  match v with
  | VStruct [a0; a1; a2] =>
      mkAsserterChoice (ptr_of (reflect_OrganizationalEntity) a0) (ptr_of (reflect_OrganizationalContact) a1) (ptr_of (str_of) a2)
  | _ => zero_AsserterChoice
  end.

Definition reify_PatentAssertion (x : PatentAssertion) : val :=
  VStruct [ VStr (PatentAssertion_BOMRef x);
            vptr (vslice (VStr)) (PatentAssertion_PatentRefs x);
            VStr (PatentAssertion_AssertionType x);
            vptr (reify_AsserterChoice) (PatentAssertion_Asserter x);
            VStr (PatentAssertion_Notes x) ].
Definition reflect_PatentAssertion (v : val) : PatentAssertion :=
  match v with
  | VStruct [a0; a1; a2; a3; a4] =>
      mkPatentAssertion (str_of a0) (ptr_of (slice_of (str_of)) a1) (str_of a2) (ptr_of (reflect_AsserterChoice) a3) (str_of a4)
  | _ => zero_PatentAssertion
  end.

Definition reify_JSFPublicKey (x : JSFPublicKey) : val :=
  VStruct [ VStr (JSFPublicKey_KTY x);
            VStr (JSFPublicKey_CRV x);
            VStr (JSFPublicKey_X x);
            VStr (JSFPublicKey_Y x);
            VStr (JSFPublicKey_N x);
            VStr (JSFPublicKey_E x) ].
Definition reflect_JSFPublicKey (v : val) : JSFPublicKey :=
  match v with
  | VStruct [a0; a1; a2; a3; a4; a5] =>
      mkJSFPublicKey (str_of a0) (str_of a1) (str_of a2) (str_of a3) (str_of a4) (str_of a5)
  | _ => zero_JSFPublicKey
  end.

Definition reify_JSFSigner (x : JSFSigner) : val :=
  VStruct [ VStr (JSFSigner_Algorithm x);
            VStr (JSFSigner_KeyID x);
            reify_JSFPublicKey (JSFSigner_PublicKey x);
            vptr (vslice (VStr)) (JSFSigner_CertificatePath x);
            vptr (vslice (VStr)) (JSFSigner_Excludes x);
            VStr (JSFSigner_Value x) ].
Definition reflect_JSFSigner (v : val) : JSFSigner :=
  match v with
  | VStruct [a0; a1; a2; a3; a4; a5] =>
      mkJSFSigner (str_of a0) (str_of a1) (reflect_JSFPublicKey a2) (ptr_of (slice_of (str_of)) a3) (ptr_of (slice_of (str_of)) a4) (str_of a5)
  | _ => zero_JSFSigner
  end.

Definition reify_JSFSignature (x : JSFSignature) : val :=
  VStruct [ vptr (reify_JSFSigner) (JSFSignature_JSFSigner x);
            vptr (vslice (reify_JSFSigner)) (JSFSignature_Signers x);
            vptr (vslice (reify_JSFSigner)) (JSFSignature_Chain x) ].
Definition reflect_JSFSignature (v : val) : JSFSignature :=
  match v with
  | VStruct [a0; a1; a2] =>
      mkJSFSignature (ptr_of (reflect_JSFSigner) a0) (ptr_of (slice_of (reflect_JSFSigner)) a1) (ptr_of (slice_of (reflect_JSFSigner)) a2)
  | _ => zero_JSFSignature
  end.

Fixpoint reify_Component (x : Component) {struct x} : val :=
  VStruct [ VStr (Component_BOMRef x);
            VStr (Component_MIMEType x);
            VStr (Component_Type x);
            vptr (reify_OrganizationalEntity) (Component_Supplier x);
            vptr (reify_OrganizationalEntity) (Component_Manufacturer x);
            VStr (Component_Author x);
            vptr (vslice (reify_OrganizationalContact)) (Component_Authors x);
            VStr (Component_Publisher x);
            VStr (Component_Group x);
            VStr (Component_Name x);
            VStr (Component_Version x);
            VStr (Component_Description x);
            VStr (Component_Scope x);
            vptr (vslice (reify_Hash)) (Component_Hashes x);
            vptr (vslice (reify_LicenseChoice)) (Component_Licenses x);
            VStr (Component_Copyright x);
            VStr (Component_CPE x);
            VStr (Component_PackageURL x);
            vptr (vslice (VStr)) (Component_OmniborID x);
            vptr (vslice (VStr)) (Component_SWHID x);
            vptr (reify_SWID) (Component_SWID x);
            vptr (VBool) (Component_Modified x);
            vptr (reify_Pedigree_ reify_Component) (Component_Pedigree x);
            vptr (vslice (reify_ExternalReference)) (Component_ExternalReferences x);
            vptr (vslice (reify_Property)) (Component_Properties x);
            vptr (vslice (reify_Component)) (Component_Components x);
            vptr (reify_Evidence) (Component_Evidence x);
            vptr (reify_ReleaseNotes) (Component_ReleaseNotes x);
            vptr (reify_MLModelCard) (Component_ModelCard x);
            vptr (vslice (reify_ComponentData)) (Component_Data x);
            vptr (reify_CryptoProperties) (Component_CryptoProperties x);
            vptr (vslice (VStr)) (Component_Tags x);
            vptr (VBool) (Component_IsExternal x);
            vptr (vslice (reify_PatentAssertion)) (Component_PatentAssertions x);
            VStr (Component_VersionRange x);
            vptr (reify_JSFSignature) (Component_Signature x) ].
Fixpoint reflect_Component (v : val) {struct v} : Component :=
  match v with
  | VStruct [a0; a1; a2; a3; a4; a5; a6; a7; a8; a9; a10; a11; a12; a13; a14; a15; a16; a17; a18; a19; a20; a21; a22; a23; a24; a25; a26; a27; a28; a29; a30; a31; a32; a33; a34; a35] =>
      mkComponent (str_of a0) (str_of a1) (str_of a2) (ptr_of (reflect_OrganizationalEntity) a3) (ptr_of (reflect_OrganizationalEntity) a4) (str_of a5) (ptr_of (slice_of (reflect_OrganizationalContact)) a6) (str_of a7) (str_of a8) (str_of a9) (str_of a10) (str_of a11) (str_of a12) (ptr_of (slice_of (reflect_Hash)) a13) (ptr_of (slice_of (reflect_LicenseChoice)) a14) (str_of a15) (str_of a16) (str_of a17) (ptr_of (slice_of (str_of)) a18) (ptr_of (slice_of (str_of)) a19) (ptr_of (reflect_SWID) a20) (ptr_of (bool_of) a21) (ptr_of (reflect_Pedigree_ reflect_Component) a22) (ptr_of (slice_of (reflect_ExternalReference)) a23) (ptr_of (slice_of (reflect_Property)) a24) (ptr_of (slice_of (reflect_Component)) a25) (ptr_of (reflect_Evidence) a26) (ptr_of (reflect_ReleaseNotes) a27) (ptr_of (reflect_MLModelCard) a28) (ptr_of (slice_of (reflect_ComponentData)) a29) (ptr_of (reflect_CryptoProperties) a30) (ptr_of (slice_of (str_of)) a31) (ptr_of (bool_of) a32) (ptr_of (slice_of (reflect_PatentAssertion)) a33) (str_of a34) (ptr_of (reflect_JSFSignature) a35)
  | _ => zero_Component
  end.
Definition reify_Pedigree := reify_Pedigree_ reify_Component.
Definition reflect_Pedigree := reflect_Pedigree_ reflect_Component.

Definition reify_DataClassification (x : DataClassification) : val :=
  VStruct [ VStr (DataClassification_Flow x);
            VStr (DataClassification_Classification x);
            VStr (DataClassification_Name x);
            VStr (DataClassification_Description x);
            vptr (reify_DataGovernance) (DataClassification_Governance x);
            vptr (vslice (VStr)) (DataClassification_Source x);
            vptr (vslice (VStr)) (DataClassification_Destination x) ].
Definition reflect_DataClassification (v : val) : DataClassification :=
  match v with
  | VStruct [a0; a1; a2; a3; a4; a5; a6] =>
      mkDataClassification (str_of a0) (str_of a1) (str_of a2) (str_of a3) (ptr_of (reflect_DataGovernance) a4) (ptr_of (slice_of (str_of)) a5) (ptr_of (slice_of (str_of)) a6)
  | _ => zero_DataClassification
  end.

Fixpoint reify_Service (x : Service) {struct x} : val :=
  VStruct [ VStr (Service_BOMRef x);
            vptr (reify_OrganizationalEntity) (Service_Provider x);
            VStr (Service_Group x);
            VStr (Service_Name x);
            VStr (Service_Version x);
            VStr (Service_Description x);
            vptr (vslice (VStr)) (Service_Endpoints x);
            vptr (VBool) (Service_Authenticated x);
            vptr (VBool) (Service_CrossesTrustBoundary x);
            vptr (vslice (reify_DataClassification)) (Service_Data x);
            vptr (vslice (reify_LicenseChoice)) (Service_Licenses x);
            vptr (vslice (reify_ExternalReference)) (Service_ExternalReferences x);
            vptr (vslice (reify_Property)) (Service_Properties x);
            vptr (vslice (reify_Service)) (Service_Services x);
            vptr (reify_ReleaseNotes) (Service_ReleaseNotes x);
            vptr (vslice (VStr)) (Service_Tags x);
            VStr (Service_TrustZone x);
            vptr (vslice (reify_PatentAssertion)) (Service_PatentAssertions x);
            vptr (reify_JSFSignature) (Service_Signature x) ].
Fixpoint reflect_Service (v : val) {struct v} : Service :=
  match v with
  | VStruct [a0; a1; a2; a3; a4; a5; a6; a7; a8; a9; a10; a11; a12; a13; a14; a15; a16; a17; a18] =>
      mkService (str_of a0) (ptr_of (reflect_OrganizationalEntity) a1) (str_of a2) (str_of a3) (str_of a4) (str_of a5) (ptr_of (slice_of (str_of)) a6) (ptr_of (bool_of) a7) (ptr_of (bool_of) a8) (ptr_of (slice_of (reflect_DataClassification)) a9) (ptr_of (slice_of (reflect_LicenseChoice)) a10) (ptr_of (slice_of (reflect_ExternalReference)) a11) (ptr_of (slice_of (reflect_Property)) a12) (ptr_of (slice_of (reflect_Service)) a13) (ptr_of (reflect_ReleaseNotes) a14) (ptr_of (slice_of (str_of)) a15) (str_of a16) (ptr_of (slice_of (reflect_PatentAssertion)) a17) (ptr_of (reflect_JSFSignature) a18)
  | _ => zero_Service
  end.

Definition reify_Annotator (x : Annotator) : val :=
  VStruct [ vptr (reify_OrganizationalEntity) (Annotator_Organization x);
            vptr (reify_OrganizationalContact) (Annotator_Individual x);
            vptr (reify_Component) (Annotator_Component x);
            vptr (reify_Service) (Annotator_Service x) ].
Definition reflect_Annotator (v : val) : Annotator :=
  match v with
  | VStruct [a0; a1; a2; a3] =>
      mkAnnotator (ptr_of (reflect_OrganizationalEntity) a0) (ptr_of (reflect_OrganizationalContact) a1) (ptr_of (reflect_Component) a2) (ptr_of (reflect_Service) a3)
  | _ => zero_Annotator
  end.

Definition reify_Annotation (x : Annotation) : val :=
  VStruct [ VStr (Annotation_BOMRef x);
            vptr (vslice (VStr)) (Annotation_Subjects x);
            vptr (reify_Annotator) (Annotation_Annotator x);
            VStr (Annotation_Timestamp x);
            VStr (Annotation_Text x);
            vptr (reify_JSFSignature) (Annotation_Signature x) ].
Definition reflect_Annotation (v : val) : Annotation :=
  match v with
  | VStruct [a0; a1; a2; a3; a4; a5] =>
      mkAnnotation (str_of a0) (ptr_of (slice_of (str_of)) a1) (ptr_of (reflect_Annotator) a2) (str_of a3) (str_of a4) (ptr_of (reflect_JSFSignature) a5)
  | _ => zero_Annotation
  end.

Definition reify_Assessor (x : Assessor) : val :=
  VStruct [ VStr (Assessor_BOMRef x);
            VBool (Assessor_ThirdParty x);
            vptr (reify_OrganizationalEntity) (Assessor_Organization x) ].
Definition reflect_Assessor (v : val) : Assessor :=
  match v with
  | VStruct [a0; a1; a2] =>
      mkAssessor (str_of a0) (bool_of a1) (ptr_of (reflect_OrganizationalEntity) a2)
  | _ => zero_Assessor
  end.

Definition reify_AttestationConformance (x : AttestationConformance) : val :=
  VStruct [ vptr (VFlt) (AttestationConformance_Score x);
            VStr (AttestationConformance_Rationale x);
            vptr (vslice (VStr)) (AttestationConformance_MitigationStrategies x) ].
Definition reflect_AttestationConformance (v : val) : AttestationConformance :=
  match v with
  | VStruct [a0; a1; a2] =>
      mkAttestationConformance (ptr_of (flt_of) a0) (str_of a1) (ptr_of (slice_of (str_of)) a2)
  | _ => zero_AttestationConformance
  end.

Definition reify_AttestationConfidence (x : AttestationConfidence) : val :=
  VStruct [ vptr (VFlt) (AttestationConfidence_Score x);
            VStr (AttestationConfidence_Rationale x) ].
Definition reflect_AttestationConfidence (v : val) : AttestationConfidence :=
  match v with
  | VStruct [a0; a1] =>
      mkAttestationConfidence (ptr_of (flt_of) a0) (str_of a1)
  | _ => zero_AttestationConfidence
  end.

Definition reify_AttestationMap (x : AttestationMap) : val :=
  VStruct [ VStr (AttestationMap_Requirement x);
            vptr (vslice (VStr)) (AttestationMap_Claims x);
            vptr (vslice (VStr)) (AttestationMap_CounterClaims x);
            vptr (reify_AttestationConformance) (AttestationMap_Conformance x);
            vptr (reify_AttestationConfidence) (AttestationMap_Confidence x) ].
Definition reflect_AttestationMap (v : val) : AttestationMap :=
  match v with
  | VStruct [a0; a1; a2; a3; a4] =>
      mkAttestationMap (str_of a0) (ptr_of (slice_of (str_of)) a1) (ptr_of (slice_of (str_of)) a2) (ptr_of (reflect_AttestationConformance) a3) (ptr_of (reflect_AttestationConfidence) a4)
  | _ => zero_AttestationMap
  end.

Definition reify_Attestation (x : Attestation) : val :=
  VStruct [ VStr (Attestation_Summary x);
            VStr (Attestation_Assessor x);
            vptr (vslice (reify_AttestationMap)) (Attestation_Map x);
            vptr (reify_JSFSignature) (Attestation_Signature x) ].
Definition reflect_Attestation (v : val) : Attestation :=
  match v with
  | VStruct [a0; a1; a2; a3] =>
      mkAttestation (str_of a0) (str_of a1) (ptr_of (slice_of (reflect_AttestationMap)) a2) (ptr_of (reflect_JSFSignature) a3)
  | _ => zero_Attestation
  end.

Definition reify_Lifecycle (x : Lifecycle) : val :=
  VStruct [ VStr (Lifecycle_Name x);
            VStr (Lifecycle_Phase x);
            VStr (Lifecycle_Description x) ].
Definition reflect_Lifecycle (v : val) : Lifecycle :=
  match v with
  | VStruct [a0; a1; a2] =>
      mkLifecycle (str_of a0) (str_of a1) (str_of a2)
  | _ => zero_Lifecycle
  end.

Definition reify_Tool (x : Tool) : val :=
  VStruct [ VStr (Tool_Vendor x);
            VStr (Tool_Name x);
            VStr (Tool_Version x);
            vptr (vslice (reify_Hash)) (Tool_Hashes x);
            vptr (vslice (reify_ExternalReference)) (Tool_ExternalReferences x) ].
Definition reflect_Tool (v : val) : Tool :=
  match v with
  | VStruct [a0; a1; a2; a3; a4] =>
      mkTool (str_of a0) (str_of a1) (str_of a2) (ptr_of (slice_of (reflect_Hash)) a3) (ptr_of (slice_of (reflect_ExternalReference)) a4)
  | _ => zero_Tool
  end.

Definition reify_ToolsChoice (x : ToolsChoice) : val :=
  VStruct [ vptr (vslice (reify_Tool)) (ToolsChoice_Tools x);
            vptr (vslice (reify_Component)) (ToolsChoice_Components x);
            vptr (vslice (reify_Service)) (ToolsChoice_Services x) ].
Definition reflect_ToolsChoice (v : val) : ToolsChoice :=
  match v with
  | VStruct [a0; a1; a2] =>
      mkToolsChoice (ptr_of (slice_of (reflect_Tool)) a0) (ptr_of (slice_of (reflect_Component)) a1) (ptr_of (slice_of (reflect_Service)) a2)
  | _ => zero_ToolsChoice
  end.

Definition reify_DistributionConstraints (x : DistributionConstraints) : val :=
  VStruct [ VStr (DistributionConstraints_TLP x) ].
Definition reflect_DistributionConstraints (v : val) : DistributionConstraints :=
  match v with
  | VStruct [a0] =>
      mkDistributionConstraints (str_of a0)
  | _ => zero_DistributionConstraints
  end.

Definition reify_Metadata (x : Metadata) : val :=
  VStruct [ VStr (Metadata_Timestamp x);
            vptr (vslice (reify_Lifecycle)) (Metadata_Lifecycles x);
            vptr (reify_ToolsChoice) (Metadata_Tools x);
            vptr (vslice (reify_OrganizationalContact)) (Metadata_Authors x);
            vptr (reify_Component) (Metadata_Component x);
            vptr (reify_OrganizationalEntity) (Metadata_Manufacture x);
            vptr (reify_OrganizationalEntity) (Metadata_Manufacturer x);
            vptr (reify_OrganizationalEntity) (Metadata_Supplier x);
            vptr (vslice (reify_LicenseChoice)) (Metadata_Licenses x);
            vptr (vslice (reify_Property)) (Metadata_Properties x);
            vptr (reify_DistributionConstraints) (Metadata_DistributionConstraints x) ].
Definition reflect_Metadata (v : val) : Metadata :=
  match v with
  | VStruct [a0; a1; a2; a3; a4; a5; a6; a7; a8; a9; a10] =>
      mkMetadata (str_of a0) (ptr_of (slice_of (reflect_Lifecycle)) a1) (ptr_of (reflect_ToolsChoice) a2) (ptr_of (slice_of (reflect_OrganizationalContact)) a3) (ptr_of (reflect_Component) a4) (ptr_of (reflect_OrganizationalEntity) a5) (ptr_of (reflect_OrganizationalEntity) a6) (ptr_of (reflect_OrganizationalEntity) a7) (ptr_of (slice_of (reflect_LicenseChoice)) a8) (ptr_of (slice_of (reflect_Property)) a9) (ptr_of (reflect_DistributionConstraints) a10)
  | _ => zero_Metadata
  end.

Definition reify_Dependency (x : Dependency) : val :=
  VStruct [ VStr (Dependency_Ref x);
            vptr (vslice (VStr)) (Dependency_Dependencies x);
            vptr (vslice (VStr)) (Dependency_Provides x) ].
Definition reflect_Dependency (v : val) : Dependency :=
  match v with
  | VStruct [a0; a1; a2] =>
      mkDependency (str_of a0) (ptr_of (slice_of (str_of)) a1) (ptr_of (slice_of (str_of)) a2)
  | _ => zero_Dependency
  end.

Definition reify_Composition (x : Composition) : val :=
  VStruct [ VStr (Composition_BOMRef x);
            VStr (Composition_Aggregate x);
            vptr (vslice (VStr)) (Composition_Assemblies x);
            vptr (vslice (VStr)) (Composition_Dependencies x);
            vptr (vslice (VStr)) (Composition_Vulnerabilities x);
            vptr (reify_JSFSignature) (Composition_Signature x) ].
Definition reflect_Composition (v : val) : Composition :=
  match v with
  | VStruct [a0; a1; a2; a3; a4; a5] =>
      mkComposition (str_of a0) (str_of a1) (ptr_of (slice_of (str_of)) a2) (ptr_of (slice_of (str_of)) a3) (ptr_of (slice_of (str_of)) a4) (ptr_of (reflect_JSFSignature) a5)
  | _ => zero_Composition
  end.

Definition reify_VulnerabilityReference (x : VulnerabilityReference) : val :=
  VStruct [ VStr (VulnerabilityReference_ID x);
            vptr (reify_Source) (VulnerabilityReference_Source x) ].
Definition reflect_VulnerabilityReference (v : val) : VulnerabilityReference :=
  match v with
  | VStruct [a0; a1] =>
      mkVulnerabilityReference (str_of a0) (ptr_of (reflect_Source) a1)
  | _ => zero_VulnerabilityReference
  end.

Definition reify_VulnerabilityRating (x : VulnerabilityRating) : val :=
  VStruct [ vptr (reify_Source) (VulnerabilityRating_Source x);
            vptr (VFlt) (VulnerabilityRating_Score x);
            VStr (VulnerabilityRating_Severity x);
            VStr (VulnerabilityRating_Method x);
            VStr (VulnerabilityRating_Vector x);
            VStr (VulnerabilityRating_Justification x) ].
Definition reflect_VulnerabilityRating (v : val) : VulnerabilityRating :=
  match v with
  | VStruct [a0; a1; a2; a3; a4; a5] =>
      mkVulnerabilityRating (ptr_of (reflect_Source) a0) (ptr_of (flt_of) a1) (str_of a2) (str_of a3) (str_of a4) (str_of a5)
  | _ => zero_VulnerabilityRating
  end.

Definition reify_ProofOfConcept (x : ProofOfConcept) : val :=
  VStruct [ VStr (ProofOfConcept_ReproductionSteps x);
            VStr (ProofOfConcept_Environment x);
            vptr (vslice (reify_AttachedText)) (ProofOfConcept_SupportingMaterial x) ].
Definition reflect_ProofOfConcept (v : val) : ProofOfConcept :=
  match v with
  | VStruct [a0; a1; a2] =>
      mkProofOfConcept (str_of a0) (str_of a1) (ptr_of (slice_of (reflect_AttachedText)) a2)
  | _ => zero_ProofOfConcept
  end.

Definition reify_Credits (x : Credits) : val :=
  VStruct [ vptr (vslice (reify_OrganizationalEntity)) (Credits_Organizations x);
            vptr (vslice (reify_OrganizationalContact)) (Credits_Individuals x) ].
Definition reflect_Credits (v : val) : Credits :=
  match v with
  | VStruct [a0; a1] =>
      mkCredits (ptr_of (slice_of (reflect_OrganizationalEntity)) a0) (ptr_of (slice_of (reflect_OrganizationalContact)) a1)
  | _ => zero_Credits
  end.

Definition reify_VulnerabilityAnalysis (x : VulnerabilityAnalysis) : val :=
  VStruct [ VStr (VulnerabilityAnalysis_State x);
            VStr (VulnerabilityAnalysis_Justification x);
            vptr (vslice (VStr)) (VulnerabilityAnalysis_Response x);
            VStr (VulnerabilityAnalysis_Detail x);
            VStr (VulnerabilityAnalysis_FirstIssued x);
            VStr (VulnerabilityAnalysis_LastUpdated x) ].
Definition reflect_VulnerabilityAnalysis (v : val) : VulnerabilityAnalysis :=
  match v with
  | VStruct [a0; a1; a2; a3; a4; a5] =>
      mkVulnerabilityAnalysis (str_of a0) (str_of a1) (ptr_of (slice_of (str_of)) a2) (str_of a3) (str_of a4) (str_of a5)
  | _ => zero_VulnerabilityAnalysis
  end.

Definition reify_Vulnerability (x : Vulnerability) : val :=
  VStruct [ VStr (Vulnerability_BOMRef x);
            VStr (Vulnerability_ID x);
            vptr (reify_Source) (Vulnerability_Source x);
            vptr (vslice (reify_VulnerabilityReference)) (Vulnerability_References x);
            vptr (vslice (reify_VulnerabilityRating)) (Vulnerability_Ratings x);
            vptr (vslice (VInt)) (Vulnerability_CWEs x);
            VStr (Vulnerability_Description x);
            VStr (Vulnerability_Detail x);
            VStr (Vulnerability_Recommendation x);
            VStr (Vulnerability_Workaround x);
            vptr (reify_ProofOfConcept) (Vulnerability_ProofOfConcept x);
            vptr (vslice (reify_Advisory)) (Vulnerability_Advisories x);
            VStr (Vulnerability_Created x);
            VStr (Vulnerability_Published x);
            VStr (Vulnerability_Updated x);
            VStr (Vulnerability_Rejected x);
            vptr (reify_Credits) (Vulnerability_Credits x);
            vptr (reify_ToolsChoice) (Vulnerability_Tools x);
            vptr (reify_VulnerabilityAnalysis) (Vulnerability_Analysis x);
            vptr (vslice (reify_Affects)) (Vulnerability_Affects x);
            vptr (vslice (reify_Property)) (Vulnerability_Properties x) ].
Definition reflect_Vulnerability (v : val) : Vulnerability :=
  match v with
  | VStruct [a0; a1; a2; a3; a4; a5; a6; a7; a8; a9; a10; a11; a12; a13; a14; a15; a16; a17; a18; a19; a20] =>
      mkVulnerability (str_of a0) (str_of a1) (ptr_of (reflect_Source) a2) (ptr_of (slice_of (reflect_VulnerabilityReference)) a3) (ptr_of (slice_of (reflect_VulnerabilityRating)) a4) (ptr_of (slice_of (int_of)) a5) (str_of a6) (str_of a7) (str_of a8) (str_of a9) (ptr_of (reflect_ProofOfConcept) a10) (ptr_of (slice_of (reflect_Advisory)) a11) (str_of a12) (str_of a13) (str_of a14) (str_of a15) (ptr_of (reflect_Credits) a16) (ptr_of (reflect_ToolsChoice) a17) (ptr_of (reflect_VulnerabilityAnalysis) a18) (ptr_of (slice_of (reflect_Affects)) a19) (ptr_of (slice_of (reflect_Property)) a20)
  | _ => zero_Vulnerability
  end.

Definition reify_ResourceReferenceChoice (x : ResourceReferenceChoice) : val :=
  VStruct [ VStr (ResourceReferenceChoice_Ref x);
            vptr (reify_ExternalReference) (ResourceReferenceChoice_ExternalReference x) ].
Definition reflect_ResourceReferenceChoice (v : val) : ResourceReferenceChoice :=
  match v with
  | VStruct [a0; a1] =>
      mkResourceReferenceChoice (str_of a0) (ptr_of (reflect_ExternalReference) a1)
  | _ => zero_ResourceReferenceChoice
  end.

Definition reify_Event (x : Event) : val :=
  VStruct [ VStr (Event_UID x);
            VStr (Event_Description x);
            VStr (Event_TimeReceived x);
            vptr (reify_AttachedText) (Event_Data x);
            vptr (reify_ResourceReferenceChoice) (Event_Source x);
            vptr (reify_ResourceReferenceChoice) (Event_Target x);
            vptr (vslice (reify_Property)) (Event_Properties x) ].
Definition reflect_Event (v : val) : Event :=
  match v with
  | VStruct [a0; a1; a2; a3; a4; a5; a6] =>
      mkEvent (str_of a0) (str_of a1) (str_of a2) (ptr_of (reflect_AttachedText) a3) (ptr_of (reflect_ResourceReferenceChoice) a4) (ptr_of (reflect_ResourceReferenceChoice) a5) (ptr_of (slice_of (reflect_Property)) a6)
  | _ => zero_Event
  end.

Definition reify_TaskTriggerCondition (x : TaskTriggerCondition) : val :=
  VStruct [ VStr (TaskTriggerCondition_Description x);
            VStr (TaskTriggerCondition_Expression x);
            vptr (vslice (reify_Property)) (TaskTriggerCondition_Properties x) ].
Definition reflect_TaskTriggerCondition (v : val) : TaskTriggerCondition :=
  match v with
  | VStruct [a0; a1; a2] =>
      mkTaskTriggerCondition (str_of a0) (str_of a1) (ptr_of (slice_of (reflect_Property)) a2)
  | _ => zero_TaskTriggerCondition
  end.

Definition reify_Parameter_t (x : Parameter_t) : val :=
  VStruct [ VStr (Parameter_t_Name x);
            VStr (Parameter_t_Value x);
            VStr (Parameter_t_DataType x) ].
Definition reflect_Parameter_t (v : val) : Parameter_t :=
  match v with
  | VStruct [a0; a1; a2] =>
      mkParameter_t (str_of a0) (str_of a1) (str_of a2)
  | _ => zero_Parameter_t
  end.

Definition reify_TaskInput (x : TaskInput) : val :=
  VStruct [ vptr (reify_ResourceReferenceChoice) (TaskInput_Resource x);
            vptr (vslice (reify_Parameter_t)) (TaskInput_Parameters x);
            vptr (vslice (reify_EnvironmentVariableChoice)) (TaskInput_EnvironmentVars x);
            vptr (reify_AttachedText) (TaskInput_Data x);
            vptr (reify_ResourceReferenceChoice) (TaskInput_Source x);
            vptr (reify_ResourceReferenceChoice) (TaskInput_Target x);
            vptr (vslice (reify_Property)) (TaskInput_Properties x) ].
Definition reflect_TaskInput (v : val) : TaskInput :=
  match v with
  | VStruct [a0; a1; a2; a3; a4; a5; a6] =>
      mkTaskInput (ptr_of (reflect_ResourceReferenceChoice) a0) (ptr_of (slice_of (reflect_Parameter_t)) a1) (ptr_of (slice_of (reflect_EnvironmentVariableChoice)) a2) (ptr_of (reflect_AttachedText) a3) (ptr_of (reflect_ResourceReferenceChoice) a4) (ptr_of (reflect_ResourceReferenceChoice) a5) (ptr_of (slice_of (reflect_Property)) a6)
  | _ => zero_TaskInput
  end.

Definition reify_TaskOutput (x : TaskOutput) : val :=
  VStruct [ vptr (reify_ResourceReferenceChoice) (TaskOutput_Resource x);
            vptr (vslice (reify_Parameter_t)) (TaskOutput_Parameters x);
            vptr (vslice (reify_EnvironmentVariableChoice)) (TaskOutput_EnvironmentVars x);
            vptr (reify_AttachedText) (TaskOutput_Data x);
            VStr (TaskOutput_Type x);
            vptr (reify_ResourceReferenceChoice) (TaskOutput_Source x);
            vptr (reify_ResourceReferenceChoice) (TaskOutput_Target x);
            vptr (vslice (reify_Property)) (TaskOutput_Properties x) ].
Definition reflect_TaskOutput (v : val) : TaskOutput :=
  match v with
  | VStruct [a0; a1; a2; a3; a4; a5; a6; a7] =>
      mkTaskOutput (ptr_of (reflect_ResourceReferenceChoice) a0) (ptr_of (slice_of (reflect_Parameter_t)) a1) (ptr_of (slice_of (reflect_EnvironmentVariableChoice)) a2) (ptr_of (reflect_AttachedText) a3) (str_of a4) (ptr_of (reflect_ResourceReferenceChoice) a5) (ptr_of (reflect_ResourceReferenceChoice) a6) (ptr_of (slice_of (reflect_Property)) a7)
  | _ => zero_TaskOutput
  end.

Definition reify_TaskTrigger (x : TaskTrigger) : val :=
  VStruct [ VStr (TaskTrigger_BOMRef x);
            VStr (TaskTrigger_UID x);
            VStr (TaskTrigger_Name x);
            VStr (TaskTrigger_Description x);
            vptr (vslice (reify_ResourceReferenceChoice)) (TaskTrigger_ResourceReferences x);
            VStr (TaskTrigger_Type x);
            vptr (reify_Event) (TaskTrigger_Event x);
            vptr (vslice (reify_TaskTriggerCondition)) (TaskTrigger_Conditions x);
            VStr (TaskTrigger_TimeActivated x);
            vptr (vslice (reify_TaskInput)) (TaskTrigger_Inputs x);
            vptr (vslice (reify_TaskOutput)) (TaskTrigger_Outputs x);
            vptr (vslice (reify_Property)) (TaskTrigger_Properties x) ].
Definition reflect_TaskTrigger (v : val) : TaskTrigger :=
  match v with
  | VStruct [a0; a1; a2; a3; a4; a5; a6; a7; a8; a9; a10; a11] =>
      mkTaskTrigger (str_of a0) (str_of a1) (str_of a2) (str_of a3) (ptr_of (slice_of (reflect_ResourceReferenceChoice)) a4) (str_of a5) (ptr_of (reflect_Event) a6) (ptr_of (slice_of (reflect_TaskTriggerCondition)) a7) (str_of a8) (ptr_of (slice_of (reflect_TaskInput)) a9) (ptr_of (slice_of (reflect_TaskOutput)) a10) (ptr_of (slice_of (reflect_Property)) a11)
  | _ => zero_TaskTrigger
  end.

Definition reify_TaskCommand (x : TaskCommand) : val :=
  VStruct [ VStr (TaskCommand_Executed x);
            vptr (vslice (reify_Property)) (TaskCommand_Properties x) ].
Definition reflect_TaskCommand (v : val) : TaskCommand :=
  match v with
  | VStruct [a0; a1] =>
      mkTaskCommand (str_of a0) (ptr_of (slice_of (reflect_Property)) a1)
  | _ => zero_TaskCommand
  end.

Definition reify_TaskStep (x : TaskStep) : val :=
  VStruct [ VStr (TaskStep_Name x);
            VStr (TaskStep_Description x);
            vptr (vslice (reify_TaskCommand)) (TaskStep_Commands x);
            vptr (vslice (reify_Property)) (TaskStep_Properties x) ].
Definition reflect_TaskStep (v : val) : TaskStep :=
  match v with
  | VStruct [a0; a1; a2; a3] =>
      mkTaskStep (str_of a0) (str_of a1) (ptr_of (slice_of (reflect_TaskCommand)) a2) (ptr_of (slice_of (reflect_Property)) a3)
  | _ => zero_TaskStep
  end.

Definition reify_Volume (x : Volume) : val :=
  VStruct [ VStr (Volume_UID x);
            VStr (Volume_Name x);
            VStr (Volume_Mode x);
            VStr (Volume_Path x);
            VStr (Volume_SizeAllocated x);
            vptr (VBool) (Volume_Persistent x);
            vptr (VBool) (Volume_Remote x);
            vptr (vslice (reify_Property)) (Volume_Properties x) ].
Definition reflect_Volume (v : val) : Volume :=
  match v with
  | VStruct [a0; a1; a2; a3; a4; a5; a6; a7] =>
      mkVolume (str_of a0) (str_of a1) (str_of a2) (str_of a3) (str_of a4) (ptr_of (bool_of) a5) (ptr_of (bool_of) a6) (ptr_of (slice_of (reflect_Property)) a7)
  | _ => zero_Volume
  end.

Definition reify_TaskWorkspace (x : TaskWorkspace) : val :=
  VStruct [ VStr (TaskWorkspace_BOMRef x);
            VStr (TaskWorkspace_UID x);
            VStr (TaskWorkspace_Name x);
            vptr (vslice (VStr)) (TaskWorkspace_Aliases x);
            VStr (TaskWorkspace_Description x);
            vptr (vslice (reify_ResourceReferenceChoice)) (TaskWorkspace_ResourceReferences x);
            VStr (TaskWorkspace_AccessMode x);
            VStr (TaskWorkspace_MountPath x);
            VStr (TaskWorkspace_ManagedDataType x);
            VStr (TaskWorkspace_VolumeRequest x);
            vptr (reify_Volume) (TaskWorkspace_Volume x);
            vptr (vslice (reify_Property)) (TaskWorkspace_Properties x) ].
Definition reflect_TaskWorkspace (v : val) : TaskWorkspace :=
  match v with
  | VStruct [a0; a1; a2; a3; a4; a5; a6; a7; a8; a9; a10; a11] =>
      mkTaskWorkspace (str_of a0) (str_of a1) (str_of a2) (ptr_of (slice_of (str_of)) a3) (str_of a4) (ptr_of (slice_of (reflect_ResourceReferenceChoice)) a5) (str_of a6) (str_of a7) (str_of a8) (str_of a9) (ptr_of (reflect_Volume) a10) (ptr_of (slice_of (reflect_Property)) a11)
  | _ => zero_TaskWorkspace
  end.

Definition reify_Task (x : Task) : val :=
  VStruct [ VStr (Task_BOMRef x);
            VStr (Task_UID x);
            VStr (Task_Name x);
            VStr (Task_Description x);
            vptr (vslice (reify_Property)) (Task_Properties x);
            vptr (vslice (reify_ResourceReferenceChoice)) (Task_ResourceReferences x);
            vptr (vslice (VStr)) (Task_TaskTypes x);
            vptr (reify_TaskTrigger) (Task_Trigger x);
            vptr (vslice (reify_TaskStep)) (Task_Steps x);
            vptr (vslice (reify_TaskInput)) (Task_Inputs x);
            vptr (vslice (reify_TaskOutput)) (Task_Outputs x);
            VStr (Task_TimeStart x);
            VStr (Task_TimeEnd x);
            vptr (vslice (reify_TaskWorkspace)) (Task_Workspaces x);
            vptr (vslice (reify_Dependency)) (Task_RuntimeTopology x) ].
Definition reflect_Task (v : val) : Task :=
  match v with
  | VStruct [a0; a1; a2; a3; a4; a5; a6; a7; a8; a9; a10; a11; a12; a13; a14] =>
      mkTask (str_of a0) (str_of a1) (str_of a2) (str_of a3) (ptr_of (slice_of (reflect_Property)) a4) (ptr_of (slice_of (reflect_ResourceReferenceChoice)) a5) (ptr_of (slice_of (str_of)) a6) (ptr_of (reflect_TaskTrigger) a7) (ptr_of (slice_of (reflect_TaskStep)) a8) (ptr_of (slice_of (reflect_TaskInput)) a9) (ptr_of (slice_of (reflect_TaskOutput)) a10) (str_of a11) (str_of a12) (ptr_of (slice_of (reflect_TaskWorkspace)) a13) (ptr_of (slice_of (reflect_Dependency)) a14)
  | _ => zero_Task
  end.

Definition reify_Workflow (x : Workflow) : val :=
  VStruct [ VStr (Workflow_BOMRef x);
            VStr (Workflow_UID x);
            VStr (Workflow_Name x);
            VStr (Workflow_Description x);
            vptr (vslice (reify_ResourceReferenceChoice)) (Workflow_ResourceReferences x);
            vptr (vslice (reify_Task)) (Workflow_Tasks x);
            vptr (vslice (reify_Dependency)) (Workflow_TaskDependencies x);
            vptr (vslice (VStr)) (Workflow_TaskTypes x);
            vptr (reify_TaskTrigger) (Workflow_Trigger x);
            vptr (vslice (reify_TaskStep)) (Workflow_Steps x);
            vptr (vslice (reify_TaskInput)) (Workflow_Inputs x);
            vptr (vslice (reify_TaskOutput)) (Workflow_Outputs x);
            VStr (Workflow_TimeStart x);
            VStr (Workflow_TimeEnd x);
            vptr (vslice (reify_TaskWorkspace)) (Workflow_Workspaces x);
            vptr (vslice (reify_Dependency)) (Workflow_RuntimeTopology x);
            vptr (vslice (reify_Property)) (Workflow_Properties x) ].
Definition reflect_Workflow (v : val) : Workflow :=
  match v with
  | VStruct [a0; a1; a2; a3; a4; a5; a6; a7; a8; a9; a10; a11; a12; a13; a14; a15; a16] =>
      mkWorkflow (str_of a0) (str_of a1) (str_of a2) (str_of a3) (ptr_of (slice_of (reflect_ResourceReferenceChoice)) a4) (ptr_of (slice_of (reflect_Task)) a5) (ptr_of (slice_of (reflect_Dependency)) a6) (ptr_of (slice_of (str_of)) a7) (ptr_of (reflect_TaskTrigger) a8) (ptr_of (slice_of (reflect_TaskStep)) a9) (ptr_of (slice_of (reflect_TaskInput)) a10) (ptr_of (slice_of (reflect_TaskOutput)) a11) (str_of a12) (str_of a13) (ptr_of (slice_of (reflect_TaskWorkspace)) a14) (ptr_of (slice_of (reflect_Dependency)) a15) (ptr_of (slice_of (reflect_Property)) a16)
  | _ => zero_Workflow
  end.

Definition reify_Formula (x : Formula) : val :=
  VStruct [ VStr (Formula_BOMRef x);
            vptr (vslice (reify_Component)) (Formula_Components x);
            vptr (vslice (reify_Service)) (Formula_Services x);
            vptr (vslice (reify_Workflow)) (Formula_Workflows x);
            vptr (vslice (reify_Property)) (Formula_Properties x) ].
Definition reflect_Formula (v : val) : Formula :=
  match v with
  | VStruct [a0; a1; a2; a3; a4] =>
      mkFormula (str_of a0) (ptr_of (slice_of (reflect_Component)) a1) (ptr_of (slice_of (reflect_Service)) a2) (ptr_of (slice_of (reflect_Workflow)) a3) (ptr_of (slice_of (reflect_Property)) a4)
  | _ => zero_Formula
  end.

Definition reify_Claim (x : Claim) : val :=
  VStruct [ VStr (Claim_BOMRef x);
            VStr (Claim_Target x);
            VStr (Claim_Predicate x);
            vptr (vslice (VStr)) (Claim_MitigationStrategies x);
            VStr (Claim_Reasoning x);
            vptr (vslice (VStr)) (Claim_Evidence x);
            vptr (vslice (VStr)) (Claim_CounterEvidence x);
            vptr (vslice (reify_ExternalReference)) (Claim_ExternalReferences x);
            vptr (reify_JSFSignature) (Claim_Signature x) ].
Definition reflect_Claim (v : val) : Claim :=
  match v with
  | VStruct [a0; a1; a2; a3; a4; a5; a6; a7; a8] =>
      mkClaim (str_of a0) (str_of a1) (str_of a2) (ptr_of (slice_of (str_of)) a3) (str_of a4) (ptr_of (slice_of (str_of)) a5) (ptr_of (slice_of (str_of)) a6) (ptr_of (slice_of (reflect_ExternalReference)) a7) (ptr_of (reflect_JSFSignature) a8)
  | _ => zero_Claim
  end.

Definition reify_EvidenceDataContents (x : EvidenceDataContents) : val :=
  VStruct [ vptr (reify_AttachedText) (EvidenceDataContents_Attachment x);
            VStr (EvidenceDataContents_URL x) ].
Definition reflect_EvidenceDataContents (v : val) : EvidenceDataContents :=
  match v with
  | VStruct [a0; a1] =>
      mkEvidenceDataContents (ptr_of (reflect_AttachedText) a0) (str_of a1)
  | _ => zero_EvidenceDataContents
  end.

Definition reify_EvidenceData (x : EvidenceData) : val :=
  VStruct [ VStr (EvidenceData_Name x);
            vptr (reify_EvidenceDataContents) (EvidenceData_Contents x);
            vptr (reify_DataClassification) (EvidenceData_Classification x);
            vptr (vslice (VStr)) (EvidenceData_SensitiveData x);
            vptr (reify_DataGovernance) (EvidenceData_Governance x) ].
Definition reflect_EvidenceData (v : val) : EvidenceData :=
  match v with
  | VStruct [a0; a1; a2; a3; a4] =>
      mkEvidenceData (str_of a0) (ptr_of (reflect_EvidenceDataContents) a1) (ptr_of (reflect_DataClassification) a2) (ptr_of (slice_of (str_of)) a3) (ptr_of (reflect_DataGovernance) a4)
  | _ => zero_EvidenceData
  end.

Definition reify_DeclarationEvidence (x : DeclarationEvidence) : val :=
  VStruct [ VStr (DeclarationEvidence_BOMRef x);
            VStr (DeclarationEvidence_PropertyName x);
            VStr (DeclarationEvidence_Description x);
            vptr (vslice (reify_EvidenceData)) (DeclarationEvidence_Data x);
            VStr (DeclarationEvidence_Created x);
            VStr (DeclarationEvidence_Expires x);
            vptr (reify_OrganizationalContact) (DeclarationEvidence_Author x);
            vptr (reify_OrganizationalContact) (DeclarationEvidence_Reviewer x);
            vptr (reify_JSFSignature) (DeclarationEvidence_Signature x) ].
Definition reflect_DeclarationEvidence (v : val) : DeclarationEvidence :=
  match v with
  | VStruct [a0; a1; a2; a3; a4; a5; a6; a7; a8] =>
      mkDeclarationEvidence (str_of a0) (str_of a1) (str_of a2) (ptr_of (slice_of (reflect_EvidenceData)) a3) (str_of a4) (str_of a5) (ptr_of (reflect_OrganizationalContact) a6) (ptr_of (reflect_OrganizationalContact) a7) (ptr_of (reflect_JSFSignature) a8)
  | _ => zero_DeclarationEvidence
  end.

Definition reify_Targets (x : Targets) : val :=
  VStruct [ vptr (vslice (reify_OrganizationalEntity)) (Targets_Organizations x);
            vptr (vslice (reify_Component)) (Targets_Components x);
            vptr (vslice (reify_Service)) (Targets_Services x) ].
Definition reflect_Targets (v : val) : Targets :=
  match v with
  | VStruct [a0; a1; a2] =>
      mkTargets (ptr_of (slice_of (reflect_OrganizationalEntity)) a0) (ptr_of (slice_of (reflect_Component)) a1) (ptr_of (slice_of (reflect_Service)) a2)
  | _ => zero_Targets
  end.

Definition reify_Signatory (x : Signatory) : val :=
  VStruct [ VStr (Signatory_Name x);
            VStr (Signatory_Role x);
            vptr (reify_JSFSignature) (Signatory_Signature x);
            vptr (reify_OrganizationalEntity) (Signatory_Organization x);
            vptr (reify_ExternalReference) (Signatory_ExternalReference x) ].
Definition reflect_Signatory (v : val) : Signatory :=
  match v with
  | VStruct [a0; a1; a2; a3; a4] =>
      mkSignatory (str_of a0) (str_of a1) (ptr_of (reflect_JSFSignature) a2) (ptr_of (reflect_OrganizationalEntity) a3) (ptr_of (reflect_ExternalReference) a4)
  | _ => zero_Signatory
  end.

Definition reify_Affirmation (x : Affirmation) : val :=
  VStruct [ VStr (Affirmation_Statement x);
            vptr (vslice (reify_Signatory)) (Affirmation_Signatories x);
            vptr (reify_JSFSignature) (Affirmation_Signature x) ].
Definition reflect_Affirmation (v : val) : Affirmation :=
  match v with
  | VStruct [a0; a1; a2] =>
      mkAffirmation (str_of a0) (ptr_of (slice_of (reflect_Signatory)) a1) (ptr_of (reflect_JSFSignature) a2)
  | _ => zero_Affirmation
  end.

Definition reify_Declarations (x : Declarations) : val :=
  VStruct [ vptr (vslice (reify_Assessor)) (Declarations_Assessors x);
            vptr (vslice (reify_Attestation)) (Declarations_Attestations x);
            vptr (vslice (reify_Claim)) (Declarations_Claims x);
            vptr (vslice (reify_DeclarationEvidence)) (Declarations_Evidence x);
            vptr (reify_Targets) (Declarations_Targets x);
            vptr (reify_Affirmation) (Declarations_Affirmation x);
            vptr (reify_JSFSignature) (Declarations_Signature x) ].
Definition reflect_Declarations (v : val) : Declarations :=
  match v with
  | VStruct [a0; a1; a2; a3; a4; a5; a6] =>
      mkDeclarations (ptr_of (slice_of (reflect_Assessor)) a0) (ptr_of (slice_of (reflect_Attestation)) a1) (ptr_of (slice_of (reflect_Claim)) a2) (ptr_of (slice_of (reflect_DeclarationEvidence)) a3) (ptr_of (reflect_Targets) a4) (ptr_of (reflect_Affirmation) a5) (ptr_of (reflect_JSFSignature) a6)
  | _ => zero_Declarations
  end.

Definition reify_StandardRequirement (x : StandardRequirement) : val :=
  VStruct [ VStr (StandardRequirement_BOMRef x);
            VStr (StandardRequirement_Identifier x);
            VStr (StandardRequirement_Title x);
            VStr (StandardRequirement_Text x);
            vptr (vslice (VStr)) (StandardRequirement_Descriptions x);
            vptr (vslice (VStr)) (StandardRequirement_OpenCRE x);
            VStr (StandardRequirement_Parent x);
            vptr (vslice (reify_Property)) (StandardRequirement_Properties x);
            vptr (vslice (reify_ExternalReference)) (StandardRequirement_ExternalReferences x) ].
Definition reflect_StandardRequirement (v : val) : StandardRequirement :=
  match v with
  | VStruct [a0; a1; a2; a3; a4; a5; a6; a7; a8] =>
      mkStandardRequirement (str_of a0) (str_of a1) (str_of a2) (str_of a3) (ptr_of (slice_of (str_of)) a4) (ptr_of (slice_of (str_of)) a5) (str_of a6) (ptr_of (slice_of (reflect_Property)) a7) (ptr_of (slice_of (reflect_ExternalReference)) a8)
  | _ => zero_StandardRequirement
  end.

Definition reify_StandardLevel (x : StandardLevel) : val :=
  VStruct [ VStr (StandardLevel_BOMRef x);
            VStr (StandardLevel_Identifier x);
            VStr (StandardLevel_Title x);
            VStr (StandardLevel_Description x);
            vptr (vslice (VStr)) (StandardLevel_Requirements x) ].
Definition reflect_StandardLevel (v : val) : StandardLevel :=
  match v with
  | VStruct [a0; a1; a2; a3; a4] =>
      mkStandardLevel (str_of a0) (str_of a1) (str_of a2) (str_of a3) (ptr_of (slice_of (str_of)) a4)
  | _ => zero_StandardLevel
  end.

Definition reify_StandardDefinition (x : StandardDefinition) : val :=
  VStruct [ VStr (StandardDefinition_BOMRef x);
            VStr (StandardDefinition_Name x);
            VStr (StandardDefinition_Version x);
            VStr (StandardDefinition_Description x);
            VStr (StandardDefinition_Owner x);
            vptr (vslice (reify_StandardRequirement)) (StandardDefinition_Requirements x);
            vptr (vslice (reify_StandardLevel)) (StandardDefinition_Levels x);
            vptr (vslice (reify_ExternalReference)) (StandardDefinition_ExternalReferences x);
            vptr (reify_JSFSignature) (StandardDefinition_Signature x) ].
Definition reflect_StandardDefinition (v : val) : StandardDefinition :=
  match v with
  | VStruct [a0; a1; a2; a3; a4; a5; a6; a7; a8] =>
      mkStandardDefinition (str_of a0) (str_of a1) (str_of a2) (str_of a3) (str_of a4) (ptr_of (slice_of (reflect_StandardRequirement)) a5) (ptr_of (slice_of (reflect_StandardLevel)) a6) (ptr_of (slice_of (reflect_ExternalReference)) a7) (ptr_of (reflect_JSFSignature) a8)
  | _ => zero_StandardDefinition
  end.

Definition reify_PriorityApplication (x : PriorityApplication) : val :=
  VStruct [ VStr (PriorityApplication_ApplicationNumber x);
            VStr (PriorityApplication_Jurisdiction x);
            VStr (PriorityApplication_FilingDate x) ].
Definition reflect_PriorityApplication (v : val) : PriorityApplication :=
  match v with
  | VStruct [a0; a1; a2] =>
      mkPriorityApplication (str_of a0) (str_of a1) (str_of a2)
  | _ => zero_PriorityApplication
  end.

Definition reify_Patent (x : Patent) : val :=
  VStruct [ VStr (Patent_BOMRef x);
            VStr (Patent_PatentNumber x);
            VStr (Patent_ApplicationNumber x);
            VStr (Patent_Jurisdiction x);
            vptr (reify_PriorityApplication) (Patent_PriorityApplication x);
            VStr (Patent_PublicationNumber x);
            VStr (Patent_Title x);
            VStr (Patent_Abstract x);
            VStr (Patent_FilingDate x);
            VStr (Patent_GrantDate x);
            VStr (Patent_PatentExpirationDate x);
            VStr (Patent_PatentLegalStatus x);
            vptr (vslice (reify_OrganizationalEntityOrContact)) (Patent_PatentAssignee x);
            vptr (vslice (reify_ExternalReference)) (Patent_ExternalReferences x) ].
Definition reflect_Patent (v : val) : Patent :=
  match v with
  | VStruct [a0; a1; a2; a3; a4; a5; a6; a7; a8; a9; a10; a11; a12; a13] =>
      mkPatent (str_of a0) (str_of a1) (str_of a2) (str_of a3) (ptr_of (reflect_PriorityApplication) a4) (str_of a5) (str_of a6) (str_of a7) (str_of a8) (str_of a9) (str_of a10) (str_of a11) (ptr_of (slice_of (reflect_OrganizationalEntityOrContact)) a12) (ptr_of (slice_of (reflect_ExternalReference)) a13)
  | _ => zero_Patent
  end.

Definition reify_PatentFamily (x : PatentFamily) : val :=
  VStruct [ VStr (PatentFamily_BOMRef x);
            VStr (PatentFamily_FamilyID x);
            vptr (reify_PriorityApplication) (PatentFamily_PriorityApplication x);
            vptr (vslice (VStr)) (PatentFamily_Members x);
            vptr (vslice (reify_ExternalReference)) (PatentFamily_ExternalReferences x) ].
Definition reflect_PatentFamily (v : val) : PatentFamily :=
  match v with
  | VStruct [a0; a1; a2; a3; a4] =>
      mkPatentFamily (str_of a0) (str_of a1) (ptr_of (reflect_PriorityApplication) a2) (ptr_of (slice_of (str_of)) a3) (ptr_of (slice_of (reflect_ExternalReference)) a4)
  | _ => zero_PatentFamily
  end.

Definition reify_PatentChoice (x : PatentChoice) : val :=
  VStruct [ vptr (reify_Patent) (PatentChoice_Patent x);
            vptr (reify_PatentFamily) (PatentChoice_PatentFamily x) ].
Definition reflect_PatentChoice (v : val) : PatentChoice :=
  match v with
  | VStruct [a0; a1] =>
      mkPatentChoice (ptr_of (reflect_Patent) a0) (ptr_of (reflect_PatentFamily) a1)
  | _ => zero_PatentChoice
  end.

Definition reify_Definitions (x : Definitions) : val :=
  VStruct [ vptr (vslice (reify_StandardDefinition)) (Definitions_Standards x);
            vptr (vslice (reify_PatentChoice)) (Definitions_Patents x) ].
Definition reflect_Definitions (v : val) : Definitions :=
  match v with
  | VStruct [a0; a1] =>
      mkDefinitions (ptr_of (slice_of (reflect_StandardDefinition)) a0) (ptr_of (slice_of (reflect_PatentChoice)) a1)
  | _ => zero_Definitions
  end.

Definition reify_Citation (x : Citation) : val :=
  VStruct [ VStr (Citation_BOMRef x);
            vptr (vslice (VStr)) (Citation_Pointers x);
            vptr (vslice (VStr)) (Citation_Expressions x);
            VStr (Citation_Timestamp x);
            vptr (VStr) (Citation_AttributedTo x);
            VStr (Citation_Process x);
            VStr (Citation_Note x);
            vptr (reify_JSFSignature) (Citation_Signature x) ].
Definition reflect_Citation (v : val) : Citation :=
  match v with
  | VStruct [a0; a1; a2; a3; a4; a5; a6; a7] =>
      mkCitation (str_of a0) (ptr_of (slice_of (str_of)) a1) (ptr_of (slice_of (str_of)) a2) (str_of a3) (ptr_of (str_of) a4) (str_of a5) (str_of a6) (ptr_of (reflect_JSFSignature) a7)
  | _ => zero_Citation
  end.

Definition reify_BOM (x : BOM) : val :=
  VStruct [ vname (BOM_XMLName x);
            VStr (BOM_XMLNS x);
            VStr (BOM_JSONSchema x);
            VStr (BOM_BOMFormat x);
            VInt (BOM_SpecVersion x);
            VStr (BOM_SerialNumber x);
            VInt (BOM_Version x);
            vptr (reify_Metadata) (BOM_Metadata x);
            vptr (vslice (reify_Component)) (BOM_Components x);
            vptr (vslice (reify_Service)) (BOM_Services x);
            vptr (vslice (reify_ExternalReference)) (BOM_ExternalReferences x);
            vptr (vslice (reify_Dependency)) (BOM_Dependencies x);
            vptr (vslice (reify_Composition)) (BOM_Compositions x);
            vptr (vslice (reify_Property)) (BOM_Properties x);
            vptr (vslice (reify_Vulnerability)) (BOM_Vulnerabilities x);
            vptr (vslice (reify_Annotation)) (BOM_Annotations x);
            vptr (vslice (reify_Formula)) (BOM_Formulation x);
            vptr (reify_Declarations) (BOM_Declarations x);
            vptr (reify_Definitions) (BOM_Definitions x);
            vptr (vslice (reify_Citation)) (BOM_Citations x);
            vptr (reify_JSFSignature) (BOM_Signature x) ].
Definition reflect_BOM (v : val) : BOM :=
  match v with
  | VStruct [a0; a1; a2; a3; a4; a5; a6; a7; a8; a9; a10; a11; a12; a13; a14; a15; a16; a17; a18; a19; a20] =>
      mkBOM (name_of a0) (str_of a1) (str_of a2) (str_of a3) (int_of a4) (str_of a5) (int_of a6) (ptr_of (reflect_Metadata) a7) (ptr_of (slice_of (reflect_Component)) a8) (ptr_of (slice_of (reflect_Service)) a9) (ptr_of (slice_of (reflect_ExternalReference)) a10) (ptr_of (slice_of (reflect_Dependency)) a11) (ptr_of (slice_of (reflect_Composition)) a12) (ptr_of (slice_of (reflect_Property)) a13) (ptr_of (slice_of (reflect_Vulnerability)) a14) (ptr_of (slice_of (reflect_Annotation)) a15) (ptr_of (slice_of (reflect_Formula)) a16) (ptr_of (reflect_Declarations) a17) (ptr_of (reflect_Definitions) a18) (ptr_of (slice_of (reflect_Citation)) a19) (ptr_of (reflect_JSFSignature) a20)
  | _ => zero_BOM
  end.

