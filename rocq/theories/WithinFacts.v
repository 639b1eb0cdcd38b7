(** GENERATED by tools/gen_within.py: from some version on everything in a record is defined. *)
From Verif Require Import Base Types ConvertSpec ConvertProofs Within.
From Coq Require Import Lia.
Local Open Scope string_scope.
Local Open Scope Z_scope.

Lemma all_of_forall {A} (P : A -> Prop) l : all_of P l <-> forall x, In x l -> P x.
Proof.
  induction l as [|y l IH]; cbn [all_of In]; split; [intros _ x []|trivial| |].
  - intros [H1 H2] x [<-|Hx]; trivial. apply IH; trivial.
  - intros H. split; [apply H; left; reflexivity|]. apply IH. intros x Hx; apply H; right; exact Hx.
Qed.

Lemma all_in_forall {A} (P : A -> Prop) p : all_in P p <-> forall x, In x (members p) -> P x.
Proof.
  destruct p as [[l|]|]; cbn [all_in members]; [apply all_of_forall| |]; (split; [intros _ x []|trivial]).
Qed.

Lemma all_in_new {A} (P : A -> Prop) p : (forall x, P x) -> all_in P p.
Proof. intros H. apply all_in_forall. auto. Qed.

Lemma inside_new {A} (P : A -> Prop) o : (forall x, P x) -> inside P o.
Proof. intros H. destruct o; cbn; auto. Qed.

Lemma introduced_new {A} v sv (z x : A) : v <= sv -> introduced v sv z x.
Proof. intros H L. lia. Qed.

Lemma not_newer_new e m sv s : forallb (fun p => snd p <=? m) e = true -> m <= sv -> not_newer e sv s.
Proof.
  intros He Hm v Hv. rewrite forallb_forall in He. specialize (He _ Hv). cbn in He. apply Z.leb_le in He. lia.
Qed.

Ltac conjs := repeat match goal with |- _ /\ _ => split end.
Ltac vlia := unfold v1_0, v1_1, v1_2, v1_3, v1_4, v1_5, v1_6, v1_7, never in *; lia.

Lemma within_Property_new sv x : v1_3 <= sv -> within_Property sv x.
Proof.
  intros H. unfold within_Property. conjs.
  - apply introduced_new; vlia.
  - apply introduced_new; vlia.
Qed.
Lemma within_EnvironmentVariableChoice_new sv x : v1_5 <= sv -> within_EnvironmentVariableChoice sv x.
Proof.
  intros H. unfold within_EnvironmentVariableChoice. conjs.
  - apply introduced_new; vlia.
  - apply inside_new; intros; apply within_Property_new; vlia.
  - apply introduced_new; vlia.
Qed.
Lemma within_AttachedText_new sv x : v1_1 <= sv -> within_AttachedText sv x.
Proof.
  intros H. unfold within_AttachedText. conjs.
  - apply introduced_new; vlia.
  - apply introduced_new; vlia.
  - apply introduced_new; vlia.
Qed.
Lemma within_PostalAddress_new sv x : v1_6 <= sv -> within_PostalAddress sv x.
Proof.
  intros H. unfold within_PostalAddress. conjs.
  - apply introduced_new; vlia.
  - apply introduced_new; vlia.
  - apply introduced_new; vlia.
  - apply introduced_new; vlia.
  - apply introduced_new; vlia.
  - apply introduced_new; vlia.
  - apply introduced_new; vlia.
Qed.
Lemma within_OrganizationalContact_new sv x : v1_5 <= sv -> within_OrganizationalContact sv x.
Proof.
  intros H. unfold within_OrganizationalContact. conjs.
  - apply introduced_new; vlia.
  - apply introduced_new; vlia.
  - apply introduced_new; vlia.
  - apply introduced_new; vlia.
Qed.
Lemma within_OrganizationalEntity_new sv x : v1_6 <= sv -> within_OrganizationalEntity sv x.
Proof.
  intros H. unfold within_OrganizationalEntity. conjs.
  - apply introduced_new; vlia.
  - apply introduced_new; vlia.
  - apply introduced_new; vlia.
  - apply inside_new; intros; apply within_PostalAddress_new; vlia.
  - apply introduced_new; vlia.
  - apply introduced_new; vlia.
  - apply all_in_new; intros; apply within_OrganizationalContact_new; vlia.
Qed.
Lemma within_OrganizationalEntityOrContact_new sv x : v1_6 <= sv -> within_OrganizationalEntityOrContact sv x.
Proof.
  intros H. unfold within_OrganizationalEntityOrContact. conjs.
  - apply introduced_new; vlia.
  - apply inside_new; intros; apply within_OrganizationalEntity_new; vlia.
  - apply introduced_new; vlia.
  - apply inside_new; intros; apply within_OrganizationalContact_new; vlia.
Qed.
Lemma within_Licensing_new sv x : v1_6 <= sv -> within_Licensing sv x.
Proof.
  intros H. unfold within_Licensing. conjs.
  - apply introduced_new; vlia.
  - apply introduced_new; vlia.
  - apply inside_new; intros; apply within_OrganizationalEntityOrContact_new; vlia.
  - apply introduced_new; vlia.
  - apply inside_new; intros; apply within_OrganizationalEntityOrContact_new; vlia.
  - apply introduced_new; vlia.
  - apply inside_new; intros; apply within_OrganizationalEntityOrContact_new; vlia.
  - apply introduced_new; vlia.
  - apply introduced_new; vlia.
  - apply introduced_new; vlia.
  - apply introduced_new; vlia.
Qed.
Lemma within_License_new sv x : v1_6 <= sv -> within_License sv x.
Proof.
  intros H. unfold within_License. conjs.
  - apply introduced_new; vlia.
  - apply introduced_new; vlia.
  - apply introduced_new; vlia.
  - apply inside_new; intros; apply within_AttachedText_new; vlia.
  - apply introduced_new; vlia.
  - apply introduced_new; vlia.
  - apply inside_new; intros; apply within_Licensing_new; vlia.
  - apply introduced_new; vlia.
  - apply all_in_new; intros; apply within_Property_new; vlia.
Qed.
Lemma within_LicenseExpressionDetail_new sv x : v1_7 <= sv -> within_LicenseExpressionDetail sv x.
Proof.
  intros H. unfold within_LicenseExpressionDetail. conjs.
  - apply introduced_new; vlia.
  - apply introduced_new; vlia.
  - apply introduced_new; vlia.
  - apply inside_new; intros; apply within_AttachedText_new; vlia.
  - apply introduced_new; vlia.
Qed.
Lemma within_LicenseChoice_new sv x : v1_7 <= sv -> within_LicenseChoice sv x.
Proof.
  intros H. unfold within_LicenseChoice. conjs.
  - apply inside_new; intros; apply within_License_new; vlia.
  - apply introduced_new; vlia.
  - apply introduced_new; vlia.
  - apply all_in_new; intros; apply within_LicenseExpressionDetail_new; vlia.
  - apply introduced_new; vlia.
  - apply introduced_new; vlia.
  - apply introduced_new; vlia.
  - apply inside_new; intros; apply within_Licensing_new; vlia.
  - apply introduced_new; vlia.
  - apply all_in_new; intros; apply within_Property_new; vlia.
Qed.
Lemma within_Advisory_new sv x : v1_4 <= sv -> within_Advisory sv x.
Proof.
  intros H. unfold within_Advisory. conjs.
  - apply introduced_new; vlia.
  - apply introduced_new; vlia.
Qed.
Lemma within_AffectedVersions_new sv x : v1_4 <= sv -> within_AffectedVersions sv x.
Proof.
  intros H. unfold within_AffectedVersions. conjs.
  - apply introduced_new; vlia.
  - apply introduced_new; vlia.
  - apply introduced_new; vlia.
Qed.
Lemma within_Affects_new sv x : v1_4 <= sv -> within_Affects sv x.
Proof.
  intros H. unfold within_Affects. conjs.
  - apply introduced_new; vlia.
  - apply introduced_new; vlia.
  - apply all_in_new; intros; apply within_AffectedVersions_new; vlia.
Qed.
Lemma within_Hash_new sv x : v1_7 <= sv -> within_Hash sv x.
Proof.
  intros H. unfold within_Hash. conjs.
  - apply (not_newer_new _ v1_7); [reflexivity|vlia].
Qed.
Lemma within_SWID_new sv x : v1_2 <= sv -> within_SWID sv x.
Proof.
  intros H. unfold within_SWID. conjs.
  - apply introduced_new; vlia.
  - apply inside_new; intros; apply within_AttachedText_new; vlia.
  - apply introduced_new; vlia.
  - apply introduced_new; vlia.
  - apply introduced_new; vlia.
  - apply introduced_new; vlia.
  - apply introduced_new; vlia.
  - apply introduced_new; vlia.
Qed.
Lemma within_IdentifiableAction_new sv x : v1_1 <= sv -> within_IdentifiableAction sv x.
Proof.
  intros H. unfold within_IdentifiableAction. conjs.
  - apply introduced_new; vlia.
  - apply introduced_new; vlia.
  - apply introduced_new; vlia.
Qed.
Lemma within_Commit_new sv x : v1_1 <= sv -> within_Commit sv x.
Proof.
  intros H. unfold within_Commit. conjs.
  - apply introduced_new; vlia.
  - apply introduced_new; vlia.
  - apply introduced_new; vlia.
  - apply inside_new; intros; apply within_IdentifiableAction_new; vlia.
  - apply introduced_new; vlia.
  - apply inside_new; intros; apply within_IdentifiableAction_new; vlia.
  - apply introduced_new; vlia.
Qed.
Lemma within_Diff_new sv x : v1_2 <= sv -> within_Diff sv x.
Proof.
  intros H. unfold within_Diff. conjs.
  - apply introduced_new; vlia.
  - apply inside_new; intros; apply within_AttachedText_new; vlia.
  - apply introduced_new; vlia.
Qed.
Lemma within_Source_new sv x : v1_2 <= sv -> within_Source sv x.
Proof.
  intros H. unfold within_Source. conjs.
  - apply introduced_new; vlia.
  - apply introduced_new; vlia.
Qed.
Lemma within_Issue_new sv x : v1_2 <= sv -> within_Issue sv x.
Proof.
  intros H. unfold within_Issue. conjs.
  - apply introduced_new; vlia.
  - apply introduced_new; vlia.
  - apply introduced_new; vlia.
  - apply introduced_new; vlia.
  - apply inside_new; intros; apply within_Source_new; vlia.
  - apply introduced_new; vlia.
  - apply introduced_new; vlia.
Qed.
Lemma within_Patch_new sv x : v1_2 <= sv -> within_Patch sv x.
Proof.
  intros H. unfold within_Patch. conjs.
  - apply introduced_new; vlia.
  - apply inside_new; intros; apply within_Diff_new; vlia.
  - apply introduced_new; vlia.
  - apply all_in_new; intros; apply within_Issue_new; vlia.
  - apply introduced_new; vlia.
Qed.
Lemma within_ExternalReference_new sv x : v1_7 <= sv -> within_ExternalReference sv x.
Proof.
  intros H. unfold within_ExternalReference. conjs.
  - apply introduced_new; vlia.
  - apply introduced_new; vlia.
  - apply introduced_new; vlia.
  - apply all_in_new; intros; apply within_Hash_new; vlia.
  - apply introduced_new; vlia.
  - apply (not_newer_new _ v1_7); [reflexivity|vlia].
  - apply introduced_new; vlia.
  - apply all_in_new; intros; apply within_Property_new; vlia.
Qed.
Lemma within_EvidenceIdentityMethod_new sv x : v1_5 <= sv -> within_EvidenceIdentityMethod sv x.
Proof.
  intros H. unfold within_EvidenceIdentityMethod. conjs.
  - apply introduced_new; vlia.
  - apply introduced_new; vlia.
  - apply introduced_new; vlia.
Qed.
Lemma within_EvidenceIdentity_new sv x : v1_6 <= sv -> within_EvidenceIdentity sv x.
Proof.
  intros H. unfold within_EvidenceIdentity. conjs.
  - apply introduced_new; vlia.
  - apply (not_newer_new _ v1_6); [reflexivity|vlia].
  - apply introduced_new; vlia.
  - apply introduced_new; vlia.
  - apply introduced_new; vlia.
  - apply all_in_new; intros; apply within_EvidenceIdentityMethod_new; vlia.
  - apply introduced_new; vlia.
Qed.
Lemma within_EvidenceIdentityChoice_new sv x : v1_6 <= sv -> within_EvidenceIdentityChoice sv x.
Proof.
  intros H. unfold within_EvidenceIdentityChoice. conjs.
  - apply introduced_new; vlia.
  - apply inside_new; intros; apply within_EvidenceIdentity_new; vlia.
  - apply introduced_new; vlia.
  - apply all_in_new; intros; apply within_EvidenceIdentity_new; vlia.
Qed.
Lemma within_EvidenceOccurrence_new sv x : v1_6 <= sv -> within_EvidenceOccurrence sv x.
Proof.
  intros H. unfold within_EvidenceOccurrence. conjs.
  - apply introduced_new; vlia.
  - apply introduced_new; vlia.
  - apply introduced_new; vlia.
  - apply introduced_new; vlia.
  - apply introduced_new; vlia.
  - apply introduced_new; vlia.
Qed.
Lemma within_CallstackFrame_new sv x : v1_5 <= sv -> within_CallstackFrame sv x.
Proof.
  intros H. unfold within_CallstackFrame. conjs.
  - apply introduced_new; vlia.
  - apply introduced_new; vlia.
  - apply introduced_new; vlia.
  - apply introduced_new; vlia.
  - apply introduced_new; vlia.
  - apply introduced_new; vlia.
  - apply introduced_new; vlia.
Qed.
Lemma within_Callstack_new sv x : v1_5 <= sv -> within_Callstack sv x.
Proof.
  intros H. unfold within_Callstack. conjs.
  - apply introduced_new; vlia.
  - apply all_in_new; intros; apply within_CallstackFrame_new; vlia.
Qed.
Lemma within_Copyright_new sv x : v1_3 <= sv -> within_Copyright sv x.
Proof.
  intros H. unfold within_Copyright. conjs.
  - apply introduced_new; vlia.
Qed.
Lemma within_Evidence_new sv x : v1_7 <= sv -> within_Evidence sv x.
Proof.
  intros H. unfold within_Evidence. conjs.
  - apply introduced_new; vlia.
  - apply inside_new; intros; apply within_EvidenceIdentityChoice_new; vlia.
  - apply introduced_new; vlia.
  - apply all_in_new; intros; apply within_EvidenceOccurrence_new; vlia.
  - apply introduced_new; vlia.
  - apply inside_new; intros; apply within_Callstack_new; vlia.
  - apply introduced_new; vlia.
  - apply all_in_new; intros; apply within_LicenseChoice_new; vlia.
  - apply introduced_new; vlia.
  - apply all_in_new; intros; apply within_Copyright_new; vlia.
Qed.
Lemma within_Note_new sv x : v1_4 <= sv -> within_Note sv x.
Proof.
  intros H. unfold within_Note. conjs.
  - apply introduced_new; vlia.
  - apply introduced_new; vlia.
  - apply within_AttachedText_new; vlia.
Qed.
Lemma within_ReleaseNotes_new sv x : v1_4 <= sv -> within_ReleaseNotes sv x.
Proof.
  intros H. unfold within_ReleaseNotes. conjs.
  - apply introduced_new; vlia.
  - apply introduced_new; vlia.
  - apply introduced_new; vlia.
  - apply introduced_new; vlia.
  - apply introduced_new; vlia.
  - apply introduced_new; vlia.
  - apply introduced_new; vlia.
  - apply introduced_new; vlia.
  - apply introduced_new; vlia.
  - apply all_in_new; intros; apply within_Issue_new; vlia.
  - apply introduced_new; vlia.
  - apply all_in_new; intros; apply within_Note_new; vlia.
  - apply introduced_new; vlia.
  - apply all_in_new; intros; apply within_Property_new; vlia.
Qed.
Lemma within_MLModelParametersApproach_new sv x : v1_5 <= sv -> within_MLModelParametersApproach sv x.
Proof.
  intros H. unfold within_MLModelParametersApproach. conjs.
  - apply introduced_new; vlia.
Qed.
Lemma within_ComponentDataContents_new sv x : v1_5 <= sv -> within_ComponentDataContents sv x.
Proof.
  intros H. unfold within_ComponentDataContents. conjs.
  - apply introduced_new; vlia.
  - apply inside_new; intros; apply within_AttachedText_new; vlia.
  - apply introduced_new; vlia.
  - apply introduced_new; vlia.
  - apply all_in_new; intros; apply within_Property_new; vlia.
Qed.
Lemma within_ComponentDataGraphic_new sv x : v1_5 <= sv -> within_ComponentDataGraphic sv x.
Proof.
  intros H. unfold within_ComponentDataGraphic. conjs.
  - apply introduced_new; vlia.
  - apply introduced_new; vlia.
  - apply inside_new; intros; apply within_AttachedText_new; vlia.
Qed.
Lemma within_ComponentDataGraphics_new sv x : v1_5 <= sv -> within_ComponentDataGraphics sv x.
Proof.
  intros H. unfold within_ComponentDataGraphics. conjs.
  - apply introduced_new; vlia.
  - apply introduced_new; vlia.
  - apply all_in_new; intros; apply within_ComponentDataGraphic_new; vlia.
Qed.
Lemma within_ComponentDataGovernanceResponsibleParty_new sv x : v1_6 <= sv -> within_ComponentDataGovernanceResponsibleParty sv x.
Proof.
  intros H. unfold within_ComponentDataGovernanceResponsibleParty. conjs.
  - apply introduced_new; vlia.
  - apply inside_new; intros; apply within_OrganizationalEntity_new; vlia.
  - apply introduced_new; vlia.
  - apply inside_new; intros; apply within_OrganizationalContact_new; vlia.
Qed.
Lemma within_DataGovernance_new sv x : v1_6 <= sv -> within_DataGovernance sv x.
Proof.
  intros H. unfold within_DataGovernance. conjs.
  - apply introduced_new; vlia.
  - apply all_in_new; intros; apply within_ComponentDataGovernanceResponsibleParty_new; vlia.
  - apply introduced_new; vlia.
  - apply all_in_new; intros; apply within_ComponentDataGovernanceResponsibleParty_new; vlia.
  - apply introduced_new; vlia.
  - apply all_in_new; intros; apply within_ComponentDataGovernanceResponsibleParty_new; vlia.
Qed.
Lemma within_ComponentData_new sv x : v1_6 <= sv -> within_ComponentData sv x.
Proof.
  intros H. unfold within_ComponentData. conjs.
  - apply introduced_new; vlia.
  - apply introduced_new; vlia.
  - apply introduced_new; vlia.
  - apply introduced_new; vlia.
  - apply inside_new; intros; apply within_ComponentDataContents_new; vlia.
  - apply introduced_new; vlia.
  - apply introduced_new; vlia.
  - apply introduced_new; vlia.
  - apply inside_new; intros; apply within_ComponentDataGraphics_new; vlia.
  - apply introduced_new; vlia.
  - apply introduced_new; vlia.
  - apply inside_new; intros; apply within_DataGovernance_new; vlia.
Qed.
Lemma within_MLDatasetChoice_new sv x : v1_6 <= sv -> within_MLDatasetChoice sv x.
Proof.
  intros H. unfold within_MLDatasetChoice. conjs.
  - apply introduced_new; vlia.
  - apply introduced_new; vlia.
  - apply inside_new; intros; apply within_ComponentData_new; vlia.
Qed.
Lemma within_MLInputOutputParameters_new sv x : v1_5 <= sv -> within_MLInputOutputParameters sv x.
Proof.
  intros H. unfold within_MLInputOutputParameters. conjs.
  - apply introduced_new; vlia.
Qed.
Lemma within_MLModelParameters_new sv x : v1_6 <= sv -> within_MLModelParameters sv x.
Proof.
  intros H. unfold within_MLModelParameters. conjs.
  - apply introduced_new; vlia.
  - apply inside_new; intros; apply within_MLModelParametersApproach_new; vlia.
  - apply introduced_new; vlia.
  - apply introduced_new; vlia.
  - apply introduced_new; vlia.
  - apply introduced_new; vlia.
  - apply all_in_new; intros; apply within_MLDatasetChoice_new; vlia.
  - apply introduced_new; vlia.
  - apply all_in_new; intros; apply within_MLInputOutputParameters_new; vlia.
  - apply introduced_new; vlia.
  - apply all_in_new; intros; apply within_MLInputOutputParameters_new; vlia.
Qed.
Lemma within_MLPerformanceMetricConfidenceInterval_new sv x : v1_5 <= sv -> within_MLPerformanceMetricConfidenceInterval sv x.
Proof.
  intros H. unfold within_MLPerformanceMetricConfidenceInterval. conjs.
  - apply introduced_new; vlia.
  - apply introduced_new; vlia.
Qed.
Lemma within_MLPerformanceMetric_new sv x : v1_5 <= sv -> within_MLPerformanceMetric sv x.
Proof.
  intros H. unfold within_MLPerformanceMetric. conjs.
  - apply introduced_new; vlia.
  - apply introduced_new; vlia.
  - apply introduced_new; vlia.
  - apply introduced_new; vlia.
  - apply inside_new; intros; apply within_MLPerformanceMetricConfidenceInterval_new; vlia.
Qed.
Lemma within_MLQuantitativeAnalysis_new sv x : v1_5 <= sv -> within_MLQuantitativeAnalysis sv x.
Proof.
  intros H. unfold within_MLQuantitativeAnalysis. conjs.
  - apply introduced_new; vlia.
  - apply all_in_new; intros; apply within_MLPerformanceMetric_new; vlia.
  - apply introduced_new; vlia.
  - apply inside_new; intros; apply within_ComponentDataGraphics_new; vlia.
Qed.
Lemma within_MLModelCardEthicalConsideration_new sv x : v1_5 <= sv -> within_MLModelCardEthicalConsideration sv x.
Proof.
  intros H. unfold within_MLModelCardEthicalConsideration. conjs.
  - apply introduced_new; vlia.
  - apply introduced_new; vlia.
Qed.
Lemma within_MLModelEnergyMeasure_new sv x : v1_6 <= sv -> within_MLModelEnergyMeasure sv x.
Proof.
  intros H. unfold within_MLModelEnergyMeasure. conjs.
  - apply introduced_new; vlia.
  - apply introduced_new; vlia.
Qed.
Lemma within_MLModelEnergyProvider_new sv x : v1_7 <= sv -> within_MLModelEnergyProvider sv x.
Proof.
  intros H. unfold within_MLModelEnergyProvider. conjs.
  - apply introduced_new; vlia.
  - apply introduced_new; vlia.
  - apply introduced_new; vlia.
  - apply inside_new; intros; apply within_OrganizationalEntity_new; vlia.
  - apply introduced_new; vlia.
  - apply introduced_new; vlia.
  - apply inside_new; intros; apply within_MLModelEnergyMeasure_new; vlia.
  - apply introduced_new; vlia.
  - apply all_in_new; intros; apply within_ExternalReference_new; vlia.
Qed.
Lemma within_MLModelCO2Measure_new sv x : v1_6 <= sv -> within_MLModelCO2Measure sv x.
Proof.
  intros H. unfold within_MLModelCO2Measure. conjs.
  - apply introduced_new; vlia.
  - apply introduced_new; vlia.
Qed.
Lemma within_MLModelEnergyConsumption_new sv x : v1_7 <= sv -> within_MLModelEnergyConsumption sv x.
Proof.
  intros H. unfold within_MLModelEnergyConsumption. conjs.
  - apply introduced_new; vlia.
  - apply introduced_new; vlia.
  - apply all_in_new; intros; apply within_MLModelEnergyProvider_new; vlia.
  - apply introduced_new; vlia.
  - apply within_MLModelEnergyMeasure_new; vlia.
  - apply introduced_new; vlia.
  - apply inside_new; intros; apply within_MLModelCO2Measure_new; vlia.
  - apply introduced_new; vlia.
  - apply inside_new; intros; apply within_MLModelCO2Measure_new; vlia.
  - apply introduced_new; vlia.
  - apply all_in_new; intros; apply within_Property_new; vlia.
Qed.
Lemma within_MLModelCardEnvironmentalConsiderations_new sv x : v1_7 <= sv -> within_MLModelCardEnvironmentalConsiderations sv x.
Proof.
  intros H. unfold within_MLModelCardEnvironmentalConsiderations. conjs.
  - apply introduced_new; vlia.
  - apply all_in_new; intros; apply within_MLModelEnergyConsumption_new; vlia.
  - apply introduced_new; vlia.
  - apply all_in_new; intros; apply within_Property_new; vlia.
Qed.
Lemma within_MLModelCardFairnessAssessment_new sv x : v1_5 <= sv -> within_MLModelCardFairnessAssessment sv x.
Proof.
  intros H. unfold within_MLModelCardFairnessAssessment. conjs.
  - apply introduced_new; vlia.
  - apply introduced_new; vlia.
  - apply introduced_new; vlia.
  - apply introduced_new; vlia.
Qed.
Lemma within_MLModelCardConsiderations_new sv x : v1_7 <= sv -> within_MLModelCardConsiderations sv x.
Proof.
  intros H. unfold within_MLModelCardConsiderations. conjs.
  - apply introduced_new; vlia.
  - apply introduced_new; vlia.
  - apply introduced_new; vlia.
  - apply introduced_new; vlia.
  - apply introduced_new; vlia.
  - apply all_in_new; intros; apply within_MLModelCardEthicalConsideration_new; vlia.
  - apply introduced_new; vlia.
  - apply inside_new; intros; apply within_MLModelCardEnvironmentalConsiderations_new; vlia.
  - apply introduced_new; vlia.
  - apply all_in_new; intros; apply within_MLModelCardFairnessAssessment_new; vlia.
Qed.
Lemma within_MLModelCard_new sv x : v1_7 <= sv -> within_MLModelCard sv x.
Proof.
  intros H. unfold within_MLModelCard. conjs.
  - apply introduced_new; vlia.
  - apply introduced_new; vlia.
  - apply inside_new; intros; apply within_MLModelParameters_new; vlia.
  - apply introduced_new; vlia.
  - apply inside_new; intros; apply within_MLQuantitativeAnalysis_new; vlia.
  - apply introduced_new; vlia.
  - apply inside_new; intros; apply within_MLModelCardConsiderations_new; vlia.
Qed.
Lemma within_CryptoAlgorithmProperties_new sv x : v1_7 <= sv -> within_CryptoAlgorithmProperties sv x.
Proof.
  intros H. unfold within_CryptoAlgorithmProperties. conjs.
  - apply introduced_new; vlia.
  - apply (not_newer_new _ v1_7); [reflexivity|vlia].
  - apply introduced_new; vlia.
  - apply introduced_new; vlia.
  - apply introduced_new; vlia.
  - apply introduced_new; vlia.
  - apply introduced_new; vlia.
  - apply introduced_new; vlia.
  - apply introduced_new; vlia.
  - apply introduced_new; vlia.
  - apply introduced_new; vlia.
  - apply introduced_new; vlia.
  - apply introduced_new; vlia.
  - apply introduced_new; vlia.
Qed.
Lemma within_PredefinedCertificateState_new sv x : v1_7 <= sv -> within_PredefinedCertificateState sv x.
Proof.
  intros H. unfold within_PredefinedCertificateState. conjs.
  - apply introduced_new; vlia.
  - apply introduced_new; vlia.
Qed.
Lemma within_CustomCertificateState_new sv x : v1_7 <= sv -> within_CustomCertificateState sv x.
Proof.
  intros H. unfold within_CustomCertificateState. conjs.
  - apply introduced_new; vlia.
  - apply introduced_new; vlia.
  - apply introduced_new; vlia.
Qed.
Lemma within_CertificateState_new sv x : v1_7 <= sv -> within_CertificateState sv x.
Proof.
  intros H. unfold within_CertificateState. conjs.
  - apply introduced_new; vlia.
  - apply inside_new; intros; apply within_PredefinedCertificateState_new; vlia.
  - apply introduced_new; vlia.
  - apply inside_new; intros; apply within_CustomCertificateState_new; vlia.
Qed.
Lemma within_CommonCertificateExtension_new sv x : v1_7 <= sv -> within_CommonCertificateExtension sv x.
Proof.
  intros H. unfold within_CommonCertificateExtension. conjs.
  - apply introduced_new; vlia.
  - apply introduced_new; vlia.
Qed.
Lemma within_CustomCertificateExtension_new sv x : v1_7 <= sv -> within_CustomCertificateExtension sv x.
Proof.
  intros H. unfold within_CustomCertificateExtension. conjs.
  - apply introduced_new; vlia.
  - apply introduced_new; vlia.
Qed.
Lemma within_CertificateExtension_new sv x : v1_7 <= sv -> within_CertificateExtension sv x.
Proof.
  intros H. unfold within_CertificateExtension. conjs.
  - apply introduced_new; vlia.
  - apply inside_new; intros; apply within_CommonCertificateExtension_new; vlia.
  - apply introduced_new; vlia.
  - apply inside_new; intros; apply within_CustomCertificateExtension_new; vlia.
Qed.
Lemma within_RelatedCryptographicAsset_new sv x : v1_7 <= sv -> within_RelatedCryptographicAsset sv x.
Proof.
  intros H. unfold within_RelatedCryptographicAsset. conjs.
  - apply introduced_new; vlia.
  - apply introduced_new; vlia.
Qed.
Lemma within_CertificateProperties_new sv x : v1_7 <= sv -> within_CertificateProperties sv x.
Proof.
  intros H. unfold within_CertificateProperties. conjs.
  - apply introduced_new; vlia.
  - apply introduced_new; vlia.
  - apply introduced_new; vlia.
  - apply introduced_new; vlia.
  - apply introduced_new; vlia.
  - apply introduced_new; vlia.
  - apply introduced_new; vlia.
  - apply introduced_new; vlia.
  - apply introduced_new; vlia.
  - apply introduced_new; vlia.
  - apply introduced_new; vlia.
  - apply inside_new; intros; apply within_Hash_new; vlia.
  - apply introduced_new; vlia.
  - apply all_in_new; intros; apply within_CertificateState_new; vlia.
  - apply introduced_new; vlia.
  - apply all_in_new; intros; apply within_CertificateExtension_new; vlia.
  - apply introduced_new; vlia.
  - apply all_in_new; intros; apply within_RelatedCryptographicAsset_new; vlia.
  - apply introduced_new; vlia.
  - apply introduced_new; vlia.
  - apply introduced_new; vlia.
  - apply introduced_new; vlia.
  - apply introduced_new; vlia.
Qed.
Lemma within_SecuredBy_new sv x : v1_6 <= sv -> within_SecuredBy sv x.
Proof.
  intros H. unfold within_SecuredBy. conjs.
  - apply introduced_new; vlia.
  - apply introduced_new; vlia.
Qed.
Lemma within_RelatedCryptoMaterialProperties_new sv x : v1_7 <= sv -> within_RelatedCryptoMaterialProperties sv x.
Proof.
  intros H. unfold within_RelatedCryptoMaterialProperties. conjs.
  - apply introduced_new; vlia.
  - apply introduced_new; vlia.
  - apply introduced_new; vlia.
  - apply introduced_new; vlia.
  - apply introduced_new; vlia.
  - apply introduced_new; vlia.
  - apply introduced_new; vlia.
  - apply introduced_new; vlia.
  - apply introduced_new; vlia.
  - apply introduced_new; vlia.
  - apply introduced_new; vlia.
  - apply introduced_new; vlia.
  - apply inside_new; intros; apply within_SecuredBy_new; vlia.
  - apply introduced_new; vlia.
  - apply inside_new; intros; apply within_Hash_new; vlia.
  - apply introduced_new; vlia.
  - apply all_in_new; intros; apply within_RelatedCryptographicAsset_new; vlia.
Qed.
Lemma within_CipherSuite_new sv x : v1_7 <= sv -> within_CipherSuite sv x.
Proof.
  intros H. unfold within_CipherSuite. conjs.
  - apply introduced_new; vlia.
  - apply introduced_new; vlia.
  - apply introduced_new; vlia.
  - apply introduced_new; vlia.
  - apply introduced_new; vlia.
Qed.
Lemma within_IKEv2Enc_new sv x : v1_7 <= sv -> within_IKEv2Enc sv x.
Proof.
  intros H. unfold within_IKEv2Enc. conjs.
  - apply introduced_new; vlia.
  - apply introduced_new; vlia.
  - apply introduced_new; vlia.
  - apply introduced_new; vlia.
Qed.
Lemma within_IKEv2Prf_new sv x : v1_7 <= sv -> within_IKEv2Prf sv x.
Proof.
  intros H. unfold within_IKEv2Prf. conjs.
  - apply introduced_new; vlia.
  - apply introduced_new; vlia.
  - apply introduced_new; vlia.
Qed.
Lemma within_IKEv2Integ_new sv x : v1_7 <= sv -> within_IKEv2Integ sv x.
Proof.
  intros H. unfold within_IKEv2Integ. conjs.
  - apply introduced_new; vlia.
  - apply introduced_new; vlia.
  - apply introduced_new; vlia.
Qed.
Lemma within_IKEv2Ke_new sv x : v1_7 <= sv -> within_IKEv2Ke sv x.
Proof.
  intros H. unfold within_IKEv2Ke. conjs.
  - apply introduced_new; vlia.
  - apply introduced_new; vlia.
  - apply introduced_new; vlia.
Qed.
Lemma within_IKEv2Auth_new sv x : v1_7 <= sv -> within_IKEv2Auth sv x.
Proof.
  intros H. unfold within_IKEv2Auth. conjs.
  - apply introduced_new; vlia.
  - apply introduced_new; vlia.
  - apply introduced_new; vlia.
Qed.
Lemma within_IKEv2TransformTypes_new sv x : v1_7 <= sv -> within_IKEv2TransformTypes sv x.
Proof.
  intros H. unfold within_IKEv2TransformTypes. conjs.
  - apply introduced_new; vlia.
  - apply all_in_new; intros; apply within_IKEv2Enc_new; vlia.
  - apply introduced_new; vlia.
  - apply all_in_new; intros; apply within_IKEv2Prf_new; vlia.
  - apply introduced_new; vlia.
  - apply all_in_new; intros; apply within_IKEv2Integ_new; vlia.
  - apply introduced_new; vlia.
  - apply all_in_new; intros; apply within_IKEv2Ke_new; vlia.
  - apply introduced_new; vlia.
  - apply introduced_new; vlia.
  - apply all_in_new; intros; apply within_IKEv2Auth_new; vlia.
Qed.
Lemma within_CryptoProtocolProperties_new sv x : v1_7 <= sv -> within_CryptoProtocolProperties sv x.
Proof.
  intros H. unfold within_CryptoProtocolProperties. conjs.
  - apply introduced_new; vlia.
  - apply (not_newer_new _ v1_7); [reflexivity|vlia].
  - apply introduced_new; vlia.
  - apply introduced_new; vlia.
  - apply all_in_new; intros; apply within_CipherSuite_new; vlia.
  - apply introduced_new; vlia.
  - apply inside_new; intros; apply within_IKEv2TransformTypes_new; vlia.
  - apply introduced_new; vlia.
  - apply introduced_new; vlia.
  - apply all_in_new; intros; apply within_RelatedCryptographicAsset_new; vlia.
Qed.
Lemma within_CryptoProperties_new sv x : v1_7 <= sv -> within_CryptoProperties sv x.
Proof.
  intros H. unfold within_CryptoProperties. conjs.
  - apply introduced_new; vlia.
  - apply introduced_new; vlia.
  - apply inside_new; intros; apply within_CryptoAlgorithmProperties_new; vlia.
  - apply introduced_new; vlia.
  - apply inside_new; intros; apply within_CertificateProperties_new; vlia.
  - apply introduced_new; vlia.
  - apply inside_new; intros; apply within_RelatedCryptoMaterialProperties_new; vlia.
  - apply introduced_new; vlia.
  - apply inside_new; intros; apply within_CryptoProtocolProperties_new; vlia.
  - apply introduced_new; vlia.
Qed.
Lemma within_AsserterChoice_new sv x : v1_7 <= sv -> within_AsserterChoice sv x.
Proof.
  intros H. unfold within_AsserterChoice. conjs.
  - apply introduced_new; vlia.
  - apply inside_new; intros; apply within_OrganizationalEntity_new; vlia.
  - apply introduced_new; vlia.
  - apply inside_new; intros; apply within_OrganizationalContact_new; vlia.
  - apply introduced_new; vlia.
Qed.
Lemma within_PatentAssertion_new sv x : v1_7 <= sv -> within_PatentAssertion sv x.
Proof.
  intros H. unfold within_PatentAssertion. conjs.
  - apply introduced_new; vlia.
  - apply introduced_new; vlia.
  - apply introduced_new; vlia.
  - apply introduced_new; vlia.
  - apply inside_new; intros; apply within_AsserterChoice_new; vlia.
  - apply introduced_new; vlia.
Qed.
Lemma within_JSFPublicKey_new sv x : v1_4 <= sv -> within_JSFPublicKey sv x.
Proof.
  intros H. unfold within_JSFPublicKey. conjs.
  - apply introduced_new; vlia.
  - apply introduced_new; vlia.
  - apply introduced_new; vlia.
  - apply introduced_new; vlia.
  - apply introduced_new; vlia.
  - apply introduced_new; vlia.
Qed.
Lemma within_JSFSigner_new sv x : v1_4 <= sv -> within_JSFSigner sv x.
Proof.
  intros H. unfold within_JSFSigner. conjs.
  - apply introduced_new; vlia.
  - apply introduced_new; vlia.
  - apply introduced_new; vlia.
  - apply within_JSFPublicKey_new; vlia.
  - apply introduced_new; vlia.
  - apply introduced_new; vlia.
  - apply introduced_new; vlia.
Qed.
Lemma within_JSFSignature_new sv x : v1_4 <= sv -> within_JSFSignature sv x.
Proof.
  intros H. unfold within_JSFSignature. conjs.
  - apply introduced_new; vlia.
  - apply inside_new; intros; apply within_JSFSigner_new; vlia.
  - apply introduced_new; vlia.
  - apply all_in_new; intros; apply within_JSFSigner_new; vlia.
  - apply introduced_new; vlia.
  - apply all_in_new; intros; apply within_JSFSigner_new; vlia.
Qed.
Lemma within_DataClassification_new sv x : v1_6 <= sv -> within_DataClassification sv x.
Proof.
  intros H. unfold within_DataClassification. conjs.
  - apply introduced_new; vlia.
  - apply introduced_new; vlia.
  - apply introduced_new; vlia.
  - apply introduced_new; vlia.
  - apply introduced_new; vlia.
  - apply inside_new; intros; apply within_DataGovernance_new; vlia.
  - apply introduced_new; vlia.
  - apply introduced_new; vlia.
Qed.

Lemma within_Pedigree_new {C} (P : C -> Prop) sv x : v1_2 <= sv -> (forall c, (In c (members (Pedigree_Ancestors x)) \/
    In c (members (Pedigree_Descendants x)) \/ In c (members (Pedigree_Variants x))) -> P c) -> within_Pedigree P sv x.
Proof.
  intros H HP. unfold within_Pedigree. conjs.
  - apply introduced_new; vlia.
  - apply all_in_forall. intros; apply HP; tauto.
  - apply introduced_new; vlia.
  - apply all_in_forall. intros; apply HP; tauto.
  - apply introduced_new; vlia.
  - apply all_in_forall. intros; apply HP; tauto.
  - apply introduced_new; vlia.
  - apply all_in_new; intros; apply within_Commit_new; vlia.
  - apply introduced_new; vlia.
  - apply all_in_new; intros; apply within_Patch_new; vlia.
  - apply introduced_new; vlia.
Qed.

Definition within_Component_ (sv : SpecVersion) (x : Component) : Prop :=
  introduced v1_1 sv "" (Component_BOMRef x) /\
  introduced v1_2 sv "" (Component_MIMEType x) /\
  not_newer ComponentType_values sv (Component_Type x) /\
  introduced v1_2 sv None (Component_Supplier x) /\
  inside (within_OrganizationalEntity sv) (Component_Supplier x) /\
  introduced v1_6 sv None (Component_Manufacturer x) /\
  inside (within_OrganizationalEntity sv) (Component_Manufacturer x) /\
  introduced v1_2 sv "" (Component_Author x) /\
  introduced v1_6 sv None (Component_Authors x) /\
  all_in (within_OrganizationalContact sv) (Component_Authors x) /\
  not_newer Scope_values sv (Component_Scope x) /\
  all_in (within_Hash sv) (Component_Hashes x) /\
  all_in (within_LicenseChoice sv) (Component_Licenses x) /\
  introduced v1_6 sv None (Component_OmniborID x) /\
  introduced v1_6 sv None (Component_SWHID x) /\
  introduced v1_2 sv None (Component_SWID x) /\
  inside (within_SWID sv) (Component_SWID x) /\
  introduced v1_1 sv None (Component_Pedigree x) /\
  inside (within_Pedigree (within_Component sv) sv) (Component_Pedigree x) /\
  introduced v1_1 sv None (Component_ExternalReferences x) /\
  all_in (within_ExternalReference sv) (Component_ExternalReferences x) /\
  introduced v1_3 sv None (Component_Properties x) /\
  all_in (within_Property sv) (Component_Properties x) /\
  all_in (within_Component sv) (Component_Components x) /\
  introduced v1_3 sv None (Component_Evidence x) /\
  inside (within_Evidence sv) (Component_Evidence x) /\
  introduced v1_4 sv None (Component_ReleaseNotes x) /\
  inside (within_ReleaseNotes sv) (Component_ReleaseNotes x) /\
  introduced v1_5 sv None (Component_ModelCard x) /\
  inside (within_MLModelCard sv) (Component_ModelCard x) /\
  introduced v1_5 sv None (Component_Data x) /\
  all_in (within_ComponentData sv) (Component_Data x) /\
  introduced v1_6 sv None (Component_CryptoProperties x) /\
  inside (within_CryptoProperties sv) (Component_CryptoProperties x) /\
  introduced v1_6 sv None (Component_Tags x) /\
  introduced v1_7 sv None (Component_IsExternal x) /\
  introduced v1_7 sv None (Component_PatentAssertions x) /\
  all_in (within_PatentAssertion sv) (Component_PatentAssertions x) /\
  introduced v1_7 sv "" (Component_VersionRange x) /\
  introduced v1_4 sv None (Component_Signature x) /\
  inside (within_JSFSignature sv) (Component_Signature x).
Lemma within_Component_fix sv x : within_Component sv x = within_Component_ sv x.
Proof. destruct x; reflexivity. Qed.

Lemma within_Component_new sv x : v1_7 <= sv -> within_Component sv x.
Proof.
  intros H. induction x as [x IH] using component_induction. rewrite within_Component_fix. unfold within_Component_. conjs.
  - apply introduced_new; vlia.
  - apply introduced_new; vlia.
  - apply (not_newer_new _ v1_6); [reflexivity|vlia].
  - apply introduced_new; vlia.
  - apply inside_new; intros; apply within_OrganizationalEntity_new; vlia.
  - apply introduced_new; vlia.
  - apply inside_new; intros; apply within_OrganizationalEntity_new; vlia.
  - apply introduced_new; vlia.
  - apply introduced_new; vlia.
  - apply all_in_new; intros; apply within_OrganizationalContact_new; vlia.
  - apply (not_newer_new _ v1_1); [reflexivity|vlia].
  - apply all_in_new; intros; apply within_Hash_new; vlia.
  - apply all_in_new; intros; apply within_LicenseChoice_new; vlia.
  - apply introduced_new; vlia.
  - apply introduced_new; vlia.
  - apply introduced_new; vlia.
  - apply inside_new; intros; apply within_SWID_new; vlia.
  - apply introduced_new; vlia.
  - destruct (Component_Pedigree x) as [p|] eqn:Ep; [|exact I]; apply within_Pedigree_new; [vlia|]; intros y Hy; apply IH; right; exists p; auto.
  - apply introduced_new; vlia.
  - apply all_in_new; intros; apply within_ExternalReference_new; vlia.
  - apply introduced_new; vlia.
  - apply all_in_new; intros; apply within_Property_new; vlia.
  - apply all_in_forall; intros; apply IH; left; assumption.
  - apply introduced_new; vlia.
  - apply inside_new; intros; apply within_Evidence_new; vlia.
  - apply introduced_new; vlia.
  - apply inside_new; intros; apply within_ReleaseNotes_new; vlia.
  - apply introduced_new; vlia.
  - apply inside_new; intros; apply within_MLModelCard_new; vlia.
  - apply introduced_new; vlia.
  - apply all_in_new; intros; apply within_ComponentData_new; vlia.
  - apply introduced_new; vlia.
  - apply inside_new; intros; apply within_CryptoProperties_new; vlia.
  - apply introduced_new; vlia.
  - apply introduced_new; vlia.
  - apply introduced_new; vlia.
  - apply all_in_new; intros; apply within_PatentAssertion_new; vlia.
  - apply introduced_new; vlia.
  - apply introduced_new; vlia.
  - apply inside_new; intros; apply within_JSFSignature_new; vlia.
Qed.

Definition within_Service_ (sv : SpecVersion) (x : Service) : Prop :=
  introduced v1_2 sv "" (Service_BOMRef x) /\
  introduced v1_2 sv None (Service_Provider x) /\
  inside (within_OrganizationalEntity sv) (Service_Provider x) /\
  introduced v1_2 sv "" (Service_Group x) /\
  introduced v1_2 sv "" (Service_Name x) /\
  introduced v1_2 sv "" (Service_Version x) /\
  introduced v1_2 sv "" (Service_Description x) /\
  introduced v1_2 sv None (Service_Endpoints x) /\
  introduced v1_2 sv None (Service_Authenticated x) /\
  introduced v1_2 sv None (Service_CrossesTrustBoundary x) /\
  introduced v1_2 sv None (Service_Data x) /\
  all_in (within_DataClassification sv) (Service_Data x) /\
  introduced v1_2 sv None (Service_Licenses x) /\
  all_in (within_LicenseChoice sv) (Service_Licenses x) /\
  introduced v1_2 sv None (Service_ExternalReferences x) /\
  all_in (within_ExternalReference sv) (Service_ExternalReferences x) /\
  introduced v1_3 sv None (Service_Properties x) /\
  all_in (within_Property sv) (Service_Properties x) /\
  introduced v1_2 sv None (Service_Services x) /\
  all_in (within_Service sv) (Service_Services x) /\
  introduced v1_4 sv None (Service_ReleaseNotes x) /\
  inside (within_ReleaseNotes sv) (Service_ReleaseNotes x) /\
  introduced v1_6 sv None (Service_Tags x) /\
  introduced v1_5 sv "" (Service_TrustZone x) /\
  introduced v1_7 sv None (Service_PatentAssertions x) /\
  all_in (within_PatentAssertion sv) (Service_PatentAssertions x) /\
  introduced v1_4 sv None (Service_Signature x) /\
  inside (within_JSFSignature sv) (Service_Signature x).
Lemma within_Service_fix sv x : within_Service sv x = within_Service_ sv x.
Proof. destruct x; reflexivity. Qed.

Lemma within_Service_new sv x : v1_7 <= sv -> within_Service sv x.
Proof.
  intros H. induction x as [x IH] using service_induction. rewrite within_Service_fix. unfold within_Service_. conjs.
  - apply introduced_new; vlia.
  - apply introduced_new; vlia.
  - apply inside_new; intros; apply within_OrganizationalEntity_new; vlia.
  - apply introduced_new; vlia.
  - apply introduced_new; vlia.
  - apply introduced_new; vlia.
  - apply introduced_new; vlia.
  - apply introduced_new; vlia.
  - apply introduced_new; vlia.
  - apply introduced_new; vlia.
  - apply introduced_new; vlia.
  - apply all_in_new; intros; apply within_DataClassification_new; vlia.
  - apply introduced_new; vlia.
  - apply all_in_new; intros; apply within_LicenseChoice_new; vlia.
  - apply introduced_new; vlia.
  - apply all_in_new; intros; apply within_ExternalReference_new; vlia.
  - apply introduced_new; vlia.
  - apply all_in_new; intros; apply within_Property_new; vlia.
  - apply introduced_new; vlia.
  - apply all_in_forall; exact IH.
  - apply introduced_new; vlia.
  - apply inside_new; intros; apply within_ReleaseNotes_new; vlia.
  - apply introduced_new; vlia.
  - apply introduced_new; vlia.
  - apply introduced_new; vlia.
  - apply all_in_new; intros; apply within_PatentAssertion_new; vlia.
  - apply introduced_new; vlia.
  - apply inside_new; intros; apply within_JSFSignature_new; vlia.
Qed.
Lemma within_Annotator_new sv x : v1_7 <= sv -> within_Annotator sv x.
Proof.
  intros H. unfold within_Annotator. conjs.
  - apply introduced_new; vlia.
  - apply inside_new; intros; apply within_OrganizationalEntity_new; vlia.
  - apply introduced_new; vlia.
  - apply inside_new; intros; apply within_OrganizationalContact_new; vlia.
  - apply introduced_new; vlia.
  - apply inside_new; intros; apply within_Component_new; vlia.
  - apply introduced_new; vlia.
  - apply inside_new; intros; apply within_Service_new; vlia.
Qed.
Lemma within_Annotation_new sv x : v1_7 <= sv -> within_Annotation sv x.
Proof.
  intros H. unfold within_Annotation. conjs.
  - apply introduced_new; vlia.
  - apply introduced_new; vlia.
  - apply introduced_new; vlia.
  - apply inside_new; intros; apply within_Annotator_new; vlia.
  - apply introduced_new; vlia.
  - apply introduced_new; vlia.
  - apply introduced_new; vlia.
  - apply inside_new; intros; apply within_JSFSignature_new; vlia.
Qed.
Lemma within_Assessor_new sv x : v1_6 <= sv -> within_Assessor sv x.
Proof.
  intros H. unfold within_Assessor. conjs.
  - apply introduced_new; vlia.
  - apply introduced_new; vlia.
  - apply introduced_new; vlia.
  - apply inside_new; intros; apply within_OrganizationalEntity_new; vlia.
Qed.
Lemma within_AttestationConformance_new sv x : v1_6 <= sv -> within_AttestationConformance sv x.
Proof.
  intros H. unfold within_AttestationConformance. conjs.
  - apply introduced_new; vlia.
  - apply introduced_new; vlia.
  - apply introduced_new; vlia.
Qed.
Lemma within_AttestationConfidence_new sv x : v1_6 <= sv -> within_AttestationConfidence sv x.
Proof.
  intros H. unfold within_AttestationConfidence. conjs.
  - apply introduced_new; vlia.
  - apply introduced_new; vlia.
Qed.
Lemma within_AttestationMap_new sv x : v1_6 <= sv -> within_AttestationMap sv x.
Proof.
  intros H. unfold within_AttestationMap. conjs.
  - apply introduced_new; vlia.
  - apply introduced_new; vlia.
  - apply introduced_new; vlia.
  - apply introduced_new; vlia.
  - apply inside_new; intros; apply within_AttestationConformance_new; vlia.
  - apply introduced_new; vlia.
  - apply inside_new; intros; apply within_AttestationConfidence_new; vlia.
Qed.
Lemma within_Attestation_new sv x : v1_6 <= sv -> within_Attestation sv x.
Proof.
  intros H. unfold within_Attestation. conjs.
  - apply introduced_new; vlia.
  - apply introduced_new; vlia.
  - apply introduced_new; vlia.
  - apply all_in_new; intros; apply within_AttestationMap_new; vlia.
  - apply introduced_new; vlia.
  - apply inside_new; intros; apply within_JSFSignature_new; vlia.
Qed.
Lemma within_Lifecycle_new sv x : v1_5 <= sv -> within_Lifecycle sv x.
Proof.
  intros H. unfold within_Lifecycle. conjs.
  - apply introduced_new; vlia.
  - apply introduced_new; vlia.
  - apply introduced_new; vlia.
Qed.
Lemma within_Tool_new sv x : v1_7 <= sv -> within_Tool sv x.
Proof.
  intros H. unfold within_Tool. conjs.
  - apply introduced_new; vlia.
  - apply introduced_new; vlia.
  - apply introduced_new; vlia.
  - apply introduced_new; vlia.
  - apply all_in_new; intros; apply within_Hash_new; vlia.
  - apply introduced_new; vlia.
  - apply all_in_new; intros; apply within_ExternalReference_new; vlia.
Qed.
Lemma within_ToolsChoice_new sv x : v1_7 <= sv -> within_ToolsChoice sv x.
Proof.
  intros H. unfold within_ToolsChoice. conjs.
  - apply introduced_new; vlia.
  - apply all_in_new; intros; apply within_Tool_new; vlia.
  - apply introduced_new; vlia.
  - apply all_in_new; intros; apply within_Component_new; vlia.
  - apply introduced_new; vlia.
  - apply all_in_new; intros; apply within_Service_new; vlia.
Qed.
Lemma within_DistributionConstraints_new sv x : v1_7 <= sv -> within_DistributionConstraints sv x.
Proof.
  intros H. unfold within_DistributionConstraints. conjs.
  - apply introduced_new; vlia.
Qed.
Lemma within_Metadata_new sv x : v1_7 <= sv -> within_Metadata sv x.
Proof.
  intros H. unfold within_Metadata. conjs.
  - apply introduced_new; vlia.
  - apply introduced_new; vlia.
  - apply all_in_new; intros; apply within_Lifecycle_new; vlia.
  - apply introduced_new; vlia.
  - apply inside_new; intros; apply within_ToolsChoice_new; vlia.
  - apply introduced_new; vlia.
  - apply all_in_new; intros; apply within_OrganizationalContact_new; vlia.
  - apply introduced_new; vlia.
  - apply inside_new; intros; apply within_Component_new; vlia.
  - apply introduced_new; vlia.
  - apply inside_new; intros; apply within_OrganizationalEntity_new; vlia.
  - apply introduced_new; vlia.
  - apply inside_new; intros; apply within_OrganizationalEntity_new; vlia.
  - apply introduced_new; vlia.
  - apply inside_new; intros; apply within_OrganizationalEntity_new; vlia.
  - apply introduced_new; vlia.
  - apply all_in_new; intros; apply within_LicenseChoice_new; vlia.
  - apply introduced_new; vlia.
  - apply all_in_new; intros; apply within_Property_new; vlia.
  - apply introduced_new; vlia.
  - apply inside_new; intros; apply within_DistributionConstraints_new; vlia.
Qed.
Lemma within_Dependency_new sv x : v1_6 <= sv -> within_Dependency sv x.
Proof.
  intros H. unfold within_Dependency. conjs.
  - apply introduced_new; vlia.
  - apply introduced_new; vlia.
  - apply introduced_new; vlia.
Qed.
Lemma within_Composition_new sv x : v1_5 <= sv -> within_Composition sv x.
Proof.
  intros H. unfold within_Composition. conjs.
  - apply introduced_new; vlia.
  - apply introduced_new; vlia.
  - apply (not_newer_new _ v1_5); [reflexivity|vlia].
  - apply introduced_new; vlia.
  - apply introduced_new; vlia.
  - apply introduced_new; vlia.
  - apply introduced_new; vlia.
  - apply inside_new; intros; apply within_JSFSignature_new; vlia.
Qed.
Lemma within_VulnerabilityReference_new sv x : v1_4 <= sv -> within_VulnerabilityReference sv x.
Proof.
  intros H. unfold within_VulnerabilityReference. conjs.
  - apply introduced_new; vlia.
  - apply introduced_new; vlia.
  - apply inside_new; intros; apply within_Source_new; vlia.
Qed.
Lemma within_VulnerabilityRating_new sv x : v1_5 <= sv -> within_VulnerabilityRating sv x.
Proof.
  intros H. unfold within_VulnerabilityRating. conjs.
  - apply introduced_new; vlia.
  - apply inside_new; intros; apply within_Source_new; vlia.
  - apply introduced_new; vlia.
  - apply introduced_new; vlia.
  - apply introduced_new; vlia.
  - apply (not_newer_new _ v1_5); [reflexivity|vlia].
  - apply introduced_new; vlia.
  - apply introduced_new; vlia.
Qed.
Lemma within_ProofOfConcept_new sv x : v1_5 <= sv -> within_ProofOfConcept sv x.
Proof.
  intros H. unfold within_ProofOfConcept. conjs.
  - apply introduced_new; vlia.
  - apply introduced_new; vlia.
  - apply introduced_new; vlia.
  - apply all_in_new; intros; apply within_AttachedText_new; vlia.
Qed.
Lemma within_Credits_new sv x : v1_6 <= sv -> within_Credits sv x.
Proof.
  intros H. unfold within_Credits. conjs.
  - apply introduced_new; vlia.
  - apply all_in_new; intros; apply within_OrganizationalEntity_new; vlia.
  - apply introduced_new; vlia.
  - apply all_in_new; intros; apply within_OrganizationalContact_new; vlia.
Qed.
Lemma within_VulnerabilityAnalysis_new sv x : v1_5 <= sv -> within_VulnerabilityAnalysis sv x.
Proof.
  intros H. unfold within_VulnerabilityAnalysis. conjs.
  - apply introduced_new; vlia.
  - apply introduced_new; vlia.
  - apply introduced_new; vlia.
  - apply introduced_new; vlia.
  - apply introduced_new; vlia.
  - apply introduced_new; vlia.
Qed.
Lemma within_Vulnerability_new sv x : v1_7 <= sv -> within_Vulnerability sv x.
Proof.
  intros H. unfold within_Vulnerability. conjs.
  - apply introduced_new; vlia.
  - apply introduced_new; vlia.
  - apply introduced_new; vlia.
  - apply inside_new; intros; apply within_Source_new; vlia.
  - apply introduced_new; vlia.
  - apply all_in_new; intros; apply within_VulnerabilityReference_new; vlia.
  - apply introduced_new; vlia.
  - apply all_in_new; intros; apply within_VulnerabilityRating_new; vlia.
  - apply introduced_new; vlia.
  - apply introduced_new; vlia.
  - apply introduced_new; vlia.
  - apply introduced_new; vlia.
  - apply introduced_new; vlia.
  - apply introduced_new; vlia.
  - apply inside_new; intros; apply within_ProofOfConcept_new; vlia.
  - apply introduced_new; vlia.
  - apply all_in_new; intros; apply within_Advisory_new; vlia.
  - apply introduced_new; vlia.
  - apply introduced_new; vlia.
  - apply introduced_new; vlia.
  - apply introduced_new; vlia.
  - apply introduced_new; vlia.
  - apply inside_new; intros; apply within_Credits_new; vlia.
  - apply introduced_new; vlia.
  - apply inside_new; intros; apply within_ToolsChoice_new; vlia.
  - apply introduced_new; vlia.
  - apply inside_new; intros; apply within_VulnerabilityAnalysis_new; vlia.
  - apply introduced_new; vlia.
  - apply all_in_new; intros; apply within_Affects_new; vlia.
  - apply introduced_new; vlia.
  - apply all_in_new; intros; apply within_Property_new; vlia.
Qed.
Lemma within_ResourceReferenceChoice_new sv x : v1_7 <= sv -> within_ResourceReferenceChoice sv x.
Proof.
  intros H. unfold within_ResourceReferenceChoice. conjs.
  - apply introduced_new; vlia.
  - apply introduced_new; vlia.
  - apply inside_new; intros; apply within_ExternalReference_new; vlia.
Qed.
Lemma within_Event_new sv x : v1_7 <= sv -> within_Event sv x.
Proof.
  intros H. unfold within_Event. conjs.
  - apply introduced_new; vlia.
  - apply introduced_new; vlia.
  - apply introduced_new; vlia.
  - apply introduced_new; vlia.
  - apply inside_new; intros; apply within_AttachedText_new; vlia.
  - apply introduced_new; vlia.
  - apply inside_new; intros; apply within_ResourceReferenceChoice_new; vlia.
  - apply introduced_new; vlia.
  - apply inside_new; intros; apply within_ResourceReferenceChoice_new; vlia.
  - apply introduced_new; vlia.
  - apply all_in_new; intros; apply within_Property_new; vlia.
Qed.
Lemma within_TaskTriggerCondition_new sv x : v1_5 <= sv -> within_TaskTriggerCondition sv x.
Proof.
  intros H. unfold within_TaskTriggerCondition. conjs.
  - apply introduced_new; vlia.
  - apply introduced_new; vlia.
  - apply introduced_new; vlia.
  - apply all_in_new; intros; apply within_Property_new; vlia.
Qed.
Lemma within_Parameter_t_new sv x : v1_5 <= sv -> within_Parameter_t sv x.
Proof.
  intros H. unfold within_Parameter_t. conjs.
  - apply introduced_new; vlia.
  - apply introduced_new; vlia.
  - apply introduced_new; vlia.
Qed.
Lemma within_TaskInput_new sv x : v1_7 <= sv -> within_TaskInput sv x.
Proof.
  intros H. unfold within_TaskInput. conjs.
  - apply introduced_new; vlia.
  - apply inside_new; intros; apply within_ResourceReferenceChoice_new; vlia.
  - apply introduced_new; vlia.
  - apply all_in_new; intros; apply within_Parameter_t_new; vlia.
  - apply introduced_new; vlia.
  - apply all_in_new; intros; apply within_EnvironmentVariableChoice_new; vlia.
  - apply introduced_new; vlia.
  - apply inside_new; intros; apply within_AttachedText_new; vlia.
  - apply introduced_new; vlia.
  - apply inside_new; intros; apply within_ResourceReferenceChoice_new; vlia.
  - apply introduced_new; vlia.
  - apply inside_new; intros; apply within_ResourceReferenceChoice_new; vlia.
  - apply introduced_new; vlia.
  - apply all_in_new; intros; apply within_Property_new; vlia.
Qed.
Lemma within_TaskCommand_new sv x : v1_5 <= sv -> within_TaskCommand sv x.
Proof.
  intros H. unfold within_TaskCommand. conjs.
  - apply introduced_new; vlia.
  - apply introduced_new; vlia.
  - apply all_in_new; intros; apply within_Property_new; vlia.
Qed.
Lemma within_TaskStep_new sv x : v1_5 <= sv -> within_TaskStep sv x.
Proof.
  intros H. unfold within_TaskStep. conjs.
  - apply introduced_new; vlia.
  - apply introduced_new; vlia.
  - apply introduced_new; vlia.
  - apply all_in_new; intros; apply within_TaskCommand_new; vlia.
  - apply introduced_new; vlia.
  - apply all_in_new; intros; apply within_Property_new; vlia.
Qed.
Lemma within_Volume_new sv x : v1_5 <= sv -> within_Volume sv x.
Proof.
  intros H. unfold within_Volume. conjs.
  - apply introduced_new; vlia.
  - apply introduced_new; vlia.
  - apply introduced_new; vlia.
  - apply introduced_new; vlia.
  - apply introduced_new; vlia.
  - apply introduced_new; vlia.
  - apply introduced_new; vlia.
  - apply introduced_new; vlia.
  - apply all_in_new; intros; apply within_Property_new; vlia.
Qed.
Lemma within_TaskWorkspace_new sv x : v1_7 <= sv -> within_TaskWorkspace sv x.
Proof.
  intros H. unfold within_TaskWorkspace. conjs.
  - apply introduced_new; vlia.
  - apply introduced_new; vlia.
  - apply introduced_new; vlia.
  - apply introduced_new; vlia.
  - apply introduced_new; vlia.
  - apply introduced_new; vlia.
  - apply all_in_new; intros; apply within_ResourceReferenceChoice_new; vlia.
  - apply introduced_new; vlia.
  - apply introduced_new; vlia.
  - apply introduced_new; vlia.
  - apply introduced_new; vlia.
  - apply introduced_new; vlia.
  - apply inside_new; intros; apply within_Volume_new; vlia.
  - apply introduced_new; vlia.
  - apply all_in_new; intros; apply within_Property_new; vlia.
Qed.
Lemma within_Claim_new sv x : v1_7 <= sv -> within_Claim sv x.
Proof.
  intros H. unfold within_Claim. conjs.
  - apply introduced_new; vlia.
  - apply introduced_new; vlia.
  - apply introduced_new; vlia.
  - apply introduced_new; vlia.
  - apply introduced_new; vlia.
  - apply introduced_new; vlia.
  - apply introduced_new; vlia.
  - apply introduced_new; vlia.
  - apply all_in_new; intros; apply within_ExternalReference_new; vlia.
  - apply introduced_new; vlia.
  - apply inside_new; intros; apply within_JSFSignature_new; vlia.
Qed.
Lemma within_EvidenceDataContents_new sv x : v1_6 <= sv -> within_EvidenceDataContents sv x.
Proof.
  intros H. unfold within_EvidenceDataContents. conjs.
  - apply introduced_new; vlia.
  - apply inside_new; intros; apply within_AttachedText_new; vlia.
  - apply introduced_new; vlia.
Qed.
Lemma within_EvidenceData_new sv x : v1_6 <= sv -> within_EvidenceData sv x.
Proof.
  intros H. unfold within_EvidenceData. conjs.
  - apply introduced_new; vlia.
  - apply introduced_new; vlia.
  - apply inside_new; intros; apply within_EvidenceDataContents_new; vlia.
  - apply introduced_new; vlia.
  - apply inside_new; intros; apply within_DataClassification_new; vlia.
  - apply introduced_new; vlia.
  - apply introduced_new; vlia.
  - apply inside_new; intros; apply within_DataGovernance_new; vlia.
Qed.
Lemma within_DeclarationEvidence_new sv x : v1_6 <= sv -> within_DeclarationEvidence sv x.
Proof.
  intros H. unfold within_DeclarationEvidence. conjs.
  - apply introduced_new; vlia.
  - apply introduced_new; vlia.
  - apply introduced_new; vlia.
  - apply introduced_new; vlia.
  - apply all_in_new; intros; apply within_EvidenceData_new; vlia.
  - apply introduced_new; vlia.
  - apply introduced_new; vlia.
  - apply introduced_new; vlia.
  - apply inside_new; intros; apply within_OrganizationalContact_new; vlia.
  - apply introduced_new; vlia.
  - apply inside_new; intros; apply within_OrganizationalContact_new; vlia.
  - apply introduced_new; vlia.
  - apply inside_new; intros; apply within_JSFSignature_new; vlia.
Qed.
Lemma within_Targets_new sv x : v1_7 <= sv -> within_Targets sv x.
Proof.
  intros H. unfold within_Targets. conjs.
  - apply introduced_new; vlia.
  - apply all_in_new; intros; apply within_OrganizationalEntity_new; vlia.
  - apply introduced_new; vlia.
  - apply all_in_new; intros; apply within_Component_new; vlia.
  - apply introduced_new; vlia.
  - apply all_in_new; intros; apply within_Service_new; vlia.
Qed.
Lemma within_Signatory_new sv x : v1_7 <= sv -> within_Signatory sv x.
Proof.
  intros H. unfold within_Signatory. conjs.
  - apply introduced_new; vlia.
  - apply introduced_new; vlia.
  - apply introduced_new; vlia.
  - apply inside_new; intros; apply within_JSFSignature_new; vlia.
  - apply introduced_new; vlia.
  - apply inside_new; intros; apply within_OrganizationalEntity_new; vlia.
  - apply introduced_new; vlia.
  - apply inside_new; intros; apply within_ExternalReference_new; vlia.
Qed.
Lemma within_Affirmation_new sv x : v1_7 <= sv -> within_Affirmation sv x.
Proof.
  intros H. unfold within_Affirmation. conjs.
  - apply introduced_new; vlia.
  - apply introduced_new; vlia.
  - apply all_in_new; intros; apply within_Signatory_new; vlia.
  - apply introduced_new; vlia.
  - apply inside_new; intros; apply within_JSFSignature_new; vlia.
Qed.
Lemma within_Declarations_new sv x : v1_7 <= sv -> within_Declarations sv x.
Proof.
  intros H. unfold within_Declarations. conjs.
  - apply introduced_new; vlia.
  - apply all_in_new; intros; apply within_Assessor_new; vlia.
  - apply introduced_new; vlia.
  - apply all_in_new; intros; apply within_Attestation_new; vlia.
  - apply introduced_new; vlia.
  - apply all_in_new; intros; apply within_Claim_new; vlia.
  - apply introduced_new; vlia.
  - apply all_in_new; intros; apply within_DeclarationEvidence_new; vlia.
  - apply introduced_new; vlia.
  - apply inside_new; intros; apply within_Targets_new; vlia.
  - apply introduced_new; vlia.
  - apply inside_new; intros; apply within_Affirmation_new; vlia.
  - apply introduced_new; vlia.
  - apply inside_new; intros; apply within_JSFSignature_new; vlia.
Qed.
Lemma within_StandardRequirement_new sv x : v1_7 <= sv -> within_StandardRequirement sv x.
Proof.
  intros H. unfold within_StandardRequirement. conjs.
  - apply introduced_new; vlia.
  - apply introduced_new; vlia.
  - apply introduced_new; vlia.
  - apply introduced_new; vlia.
  - apply introduced_new; vlia.
  - apply introduced_new; vlia.
  - apply introduced_new; vlia.
  - apply introduced_new; vlia.
  - apply all_in_new; intros; apply within_Property_new; vlia.
  - apply introduced_new; vlia.
  - apply all_in_new; intros; apply within_ExternalReference_new; vlia.
Qed.
Lemma within_StandardLevel_new sv x : v1_6 <= sv -> within_StandardLevel sv x.
Proof.
  intros H. unfold within_StandardLevel. conjs.
  - apply introduced_new; vlia.
  - apply introduced_new; vlia.
  - apply introduced_new; vlia.
  - apply introduced_new; vlia.
  - apply introduced_new; vlia.
Qed.
Lemma within_StandardDefinition_new sv x : v1_7 <= sv -> within_StandardDefinition sv x.
Proof.
  intros H. unfold within_StandardDefinition. conjs.
  - apply introduced_new; vlia.
  - apply introduced_new; vlia.
  - apply introduced_new; vlia.
  - apply introduced_new; vlia.
  - apply introduced_new; vlia.
  - apply introduced_new; vlia.
  - apply all_in_new; intros; apply within_StandardRequirement_new; vlia.
  - apply introduced_new; vlia.
  - apply all_in_new; intros; apply within_StandardLevel_new; vlia.
  - apply introduced_new; vlia.
  - apply all_in_new; intros; apply within_ExternalReference_new; vlia.
  - apply introduced_new; vlia.
  - apply inside_new; intros; apply within_JSFSignature_new; vlia.
Qed.
Lemma within_PriorityApplication_new sv x : v1_7 <= sv -> within_PriorityApplication sv x.
Proof.
  intros H. unfold within_PriorityApplication. conjs.
  - apply introduced_new; vlia.
  - apply introduced_new; vlia.
  - apply introduced_new; vlia.
Qed.
Lemma within_Patent_new sv x : v1_7 <= sv -> within_Patent sv x.
Proof.
  intros H. unfold within_Patent. conjs.
  - apply introduced_new; vlia.
  - apply introduced_new; vlia.
  - apply introduced_new; vlia.
  - apply introduced_new; vlia.
  - apply introduced_new; vlia.
  - apply inside_new; intros; apply within_PriorityApplication_new; vlia.
  - apply introduced_new; vlia.
  - apply introduced_new; vlia.
  - apply introduced_new; vlia.
  - apply introduced_new; vlia.
  - apply introduced_new; vlia.
  - apply introduced_new; vlia.
  - apply introduced_new; vlia.
  - apply introduced_new; vlia.
  - apply all_in_new; intros; apply within_OrganizationalEntityOrContact_new; vlia.
  - apply introduced_new; vlia.
  - apply all_in_new; intros; apply within_ExternalReference_new; vlia.
Qed.
Lemma within_PatentFamily_new sv x : v1_7 <= sv -> within_PatentFamily sv x.
Proof.
  intros H. unfold within_PatentFamily. conjs.
  - apply introduced_new; vlia.
  - apply introduced_new; vlia.
  - apply introduced_new; vlia.
  - apply inside_new; intros; apply within_PriorityApplication_new; vlia.
  - apply introduced_new; vlia.
  - apply introduced_new; vlia.
  - apply all_in_new; intros; apply within_ExternalReference_new; vlia.
Qed.
Lemma within_PatentChoice_new sv x : v1_7 <= sv -> within_PatentChoice sv x.
Proof.
  intros H. unfold within_PatentChoice. conjs.
  - apply introduced_new; vlia.
  - apply inside_new; intros; apply within_Patent_new; vlia.
  - apply introduced_new; vlia.
  - apply inside_new; intros; apply within_PatentFamily_new; vlia.
Qed.
Lemma within_Definitions_new sv x : v1_7 <= sv -> within_Definitions sv x.
Proof.
  intros H. unfold within_Definitions. conjs.
  - apply introduced_new; vlia.
  - apply all_in_new; intros; apply within_StandardDefinition_new; vlia.
  - apply introduced_new; vlia.
  - apply all_in_new; intros; apply within_PatentChoice_new; vlia.
Qed.
Lemma within_Citation_new sv x : v1_7 <= sv -> within_Citation sv x.
Proof.
  intros H. unfold within_Citation. conjs.
  - apply introduced_new; vlia.
  - apply introduced_new; vlia.
  - apply introduced_new; vlia.
  - apply introduced_new; vlia.
  - apply introduced_new; vlia.
  - apply introduced_new; vlia.
  - apply introduced_new; vlia.
  - apply introduced_new; vlia.
  - apply inside_new; intros; apply within_JSFSignature_new; vlia.
Qed.
