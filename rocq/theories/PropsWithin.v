(** C10, C31: what a conversion leaves alone and what it leaves behind. [within_BOM] and the
    enumeration tables (Within.v) are read off the official schemas; [no_gap] (Gaps.v)
    and [stable] (Stable.v) list positions of the document. *)
From Verif Require Import SchemaTables Base Types ConvertModel ConvertSpec Version Within WithinFacts Gaps Stable WithinProofs StableProofs ExampleBom.
From Coq Require Import Lia.
Local Open Scope string_scope.
Local Open Scope Z_scope.

(** C31: the converted document contains nothing newer than the target version, at any
    depth, provided the input has nothing newer at the positions of [no_gap]. The full
    property has no such proviso; see C31_leaks_refuted. *)
Theorem C31_nothing_newer_partial : forall sv b, v1_0 <= sv -> no_gap sv b -> within_BOM sv (convert sv b).
Proof. exact convert_within. Qed.
Print Assumptions C31_nothing_newer_partial.

(** The proviso is exact: whatever lies in one of these positions survives. *)
Theorem C31_gaps_exact : forall sv b, v1_0 <= sv -> (within_BOM sv (convert sv b) <-> no_gap sv b).
Proof. intros sv b H. split; [apply within_gap|apply convert_within; exact H]. Qed.
Print Assumptions C31_gaps_exact.

(** From 1.7 on there is nothing newer, but for a formulation with task output parameters,
    which no version defines. *)
Theorem C31_nothing_newer_1_7 : forall sv b, v1_7 <= sv -> BOM_Formulation b = None -> within_BOM sv (convert sv b).
Proof. intros sv b H E. apply within_BOM_1_7; [exact H|]. rewrite ConvertProofs.convert_spec. cbn. rewrite E. apply ConvertReachProofs.ptr_since_new. vlia. Qed.
Print Assumptions C31_nothing_newer_1_7.

(** One BOM for every kind of leak. *)
Definition with_component (c : Component) : BOM := set_BOM_Components (list_of [c]) NewBOM.
Definition reference (t : string) : ExternalReference := set_ExternalReference_Type t zero_ExternalReference.
Definition addressed : OrganizationalEntity := set_OrganizationalEntity_Address (Some zero_PostalAddress) zero_OrganizationalEntity.
Definition governed : DataGovernance :=
  mkDataGovernance (list_of [set_ComponentDataGovernanceResponsibleParty_Organization (Some addressed) zero_ComponentDataGovernanceResponsibleParty]) None None.

Definition leaks : list (SpecVersion * BOM) :=
  [ (v1_2, set_BOM_Properties (list_of []) NewBOM);
    (v1_3, set_BOM_Signature (Some zero_JSFSignature) NewBOM);
    (v1_3, with_component (set_Component_Signature (Some zero_JSFSignature) zero_Component));
    (v1_3, set_BOM_Services (list_of [set_Service_Signature (Some zero_JSFSignature) zero_Service]) NewBOM);
    (v1_3, set_BOM_Compositions (list_of [set_Composition_Signature (Some zero_JSFSignature) zero_Composition]) NewBOM);
    (v1_5, with_component (set_Component_Supplier (Some addressed) zero_Component));
    (v1_5, with_component (set_Component_Licenses (list_of [set_LicenseChoice_BOMRef "r" ex_license]) zero_Component));
    (v1_5, with_component (set_Component_Licenses (list_of [set_LicenseChoice_Acknowledgement (Some "declared") ex_license]) zero_Component));
    (v1_3, with_component (set_Component_ExternalReferences (list_of [reference "release-notes"]) zero_Component));
    (v1_4, with_component (set_Component_ExternalReferences (list_of [reference "security-contact"]) zero_Component));
    (v1_4, set_BOM_ExternalReferences (list_of [reference "poam"]) NewBOM);
    (v1_5, set_BOM_ExternalReferences (list_of [reference "source-distribution"]) NewBOM);
    (v1_5, set_BOM_ExternalReferences (list_of [reference "electronic-signature"]) NewBOM);
    (v1_5, set_BOM_ExternalReferences (list_of [reference "digital-signature"]) NewBOM);
    (v1_5, set_BOM_ExternalReferences (list_of [reference "rfc-9116"]) NewBOM);
    (v1_6, set_BOM_ExternalReferences (list_of [set_ExternalReference_Hashes (list_of [mkHash "Streebog-256" "h"]) (reference "vcs")]) NewBOM);
    (v1_4, with_component (set_Component_Evidence (Some (set_Evidence_Licenses (list_of [ex_license]) zero_Evidence)) zero_Component));
    (v1_5, with_component (set_Component_Evidence (Some (set_Evidence_Identity (Some (set_EvidenceIdentityChoice_Identity
             (Some (set_EvidenceIdentity_Field "swhid" zero_EvidenceIdentity)) zero_EvidenceIdentityChoice)) zero_Evidence)) zero_Component));
    (v1_5, with_component (set_Component_Data (list_of [set_ComponentData_Governance (Some governed) zero_ComponentData]) zero_Component));
    (v1_6, with_component (set_Component_CryptoProperties (Some (set_CryptoProperties_ProtocolProperties (Some
             (set_CryptoProtocolProperties_IKEv2TransformTypes (Some (set_IKEv2TransformTypes_Auth (list_of [set_IKEv2Auth_Name "a" zero_IKEv2Auth])
                zero_IKEv2TransformTypes)) zero_CryptoProtocolProperties)) zero_CryptoProperties)) zero_Component));
    (v1_5, set_BOM_Services (list_of [set_Service_Tags (list_of ["t"]) zero_Service]) NewBOM);
    (v1_2, set_BOM_Services (list_of [set_Service_Licenses (list_of [ex_license]) zero_Service]) NewBOM);
    (v1_5, set_BOM_Metadata (Some (set_Metadata_Tools (Some (set_ToolsChoice_Components (list_of [ex_leaf "t"]) zero_ToolsChoice)) zero_Metadata)) NewBOM);
    (v1_5, set_BOM_Metadata (Some (set_Metadata_Tools (Some (set_ToolsChoice_Services (list_of
             [set_Service_PatentAssertions (list_of []) zero_Service]) zero_ToolsChoice)) zero_Metadata)) NewBOM);
    (v1_5, set_BOM_Annotations (list_of [set_Annotation_Annotator (Some (set_Annotator_Component (Some (ex_leaf "c")) zero_Annotator)) zero_Annotation]) NewBOM);
    (v1_6, set_BOM_Annotations (list_of [set_Annotation_Annotator (Some (set_Annotator_Service (Some
             (set_Service_PatentAssertions (list_of []) zero_Service)) zero_Annotator)) zero_Annotation]) NewBOM);
    (v1_6, set_BOM_Definitions (Some (set_Definitions_Standards (list_of [set_StandardDefinition_ExternalReferences (list_of
             [reference "patent"]) zero_StandardDefinition]) zero_Definitions)) NewBOM);
    (v1_6, set_BOM_Declarations (Some (set_Declarations_Targets (Some (set_Targets_Components (list_of
             [set_Component_VersionRange "vers:x" zero_Component]) zero_Targets)) zero_Declarations)) NewBOM);
    (v1_5, set_BOM_Formulation (list_of [set_Formula_Components (list_of [ex_leaf "c"]) zero_Formula]) NewBOM) ].

Ltac leak :=
  let H := fresh "H" in
  intros H; vm_compute in H;
  repeat match goal with
  | K : _ /\ _ |- _ => destruct K
  | K : (?c = Gt -> False) -> _ |- _ =>
      let N := fresh in assert (N : c = Gt -> False) by discriminate; specialize (K N); clear N
  | K : (Gt = Lt -> ?E) -> _ |- _ =>
      let N := fresh in assert (N : Gt = Lt -> E) by discriminate; specialize (K N); clear N
  | K : Lt = Lt -> _ |- _ => specialize (K eq_refl)
  | K : ?x = ?y |- _ => discriminate K
  | K : forall v, _ \/ _ -> _ |- _ => 
      let N := fresh in eassert (N := K _ ltac:(repeat (first [left; reflexivity|right])));
      exfalso; apply N; reflexivity
  end.

Lemma each_leak : Forall (fun p => ~ no_gap (fst p) (snd p)) leaks.
Proof. unfold leaks. repeat (apply Forall_cons; [cbn [fst snd]; leak|]). apply Forall_nil. Qed.

(** Finding: each of these documents keeps something its version does not define. *)
Theorem C31_leaks_refuted : forall v b, In (v, b) leaks -> v1_0 <= v < v1_7 /\ ~ within_BOM v (convert v b).
Proof.
  intros v b H. split.
  - revert H. unfold leaks. cbn [In]. intros H. repeat (destruct H as [H|H]; [injection H as <- _; vlia|]). destruct H.
  - intros W. apply within_gap in W. exact (proj1 (Forall_forall _ _) each_leak _ H W).
Qed.
Print Assumptions C31_leaks_refuted.

(** The hypothesis of C31_nothing_newer_partial allows newer things at all other places. *)
Example C31_nonvacuous :
  let b := set_BOM_Vulnerabilities (list_of [ex_vulnerability]) (set_BOM_Components (list_of [ex_leaf "x"]) NewBOM) in
  no_gap v1_4 b /\ ~ within_BOM v1_4 b /\ within_BOM v1_4 (convert v1_4 b).
Proof.
  cbv zeta.
  assert (G : no_gap v1_4 (set_BOM_Vulnerabilities (list_of [ex_vulnerability]) (set_BOM_Components (list_of [ex_leaf "x"]) NewBOM))).
  { vm_compute. repeat split; intros; try discriminate; trivial; try contradiction; auto;
      match goal with H : (?c = Gt -> False) |- _ => exfalso; apply H; reflexivity | _ => idtac end. }
  split; [exact G|]. split; [|apply C31_nothing_newer_partial; [vlia|exact G]].
  intros H. unfold within_BOM in H. assert (HV : all_in (within_Vulnerability v1_4) (list_of [ex_vulnerability])) by apply H.
  destruct HV as [HV _]. assert (W : introduced v1_5 v1_4 "" "w") by apply HV. discriminate (W eq_refl).
Qed.

(** C10: a document that uses only what the version defines is left alone, up to the
    markers, if it is [stable]. The full property has no such proviso. *)
Theorem C10_unchanged_partial : forall sv b, within_BOM sv b -> stable sv b -> convert sv b = marked sv b.
Proof. exact convert_same. Qed.
Print Assumptions C10_unchanged_partial.

(** The proviso is exact. *)
Theorem C10_changes_exact : forall sv b, v1_0 <= sv -> within_BOM sv b -> (convert sv b = marked sv b <-> stable sv b).
Proof. intros sv b L H. split; [apply convert_fix; assumption|apply convert_same; exact H]. Qed.
Print Assumptions C10_changes_exact.

(** Converting to 1.7 or later needs no hypothesis about newer fields. *)
Theorem C10_newest : forall sv b, v1_7 <= sv -> stable sv b -> convert sv b = marked sv b.
Proof. exact convert_same_1_7. Qed.
Print Assumptions C10_newest.

(** The markers are the only difference. *)
Theorem C10_marked : forall sv b,
  set_BOM_SpecVersion (BOM_SpecVersion b) (set_BOM_JSONSchema (BOM_JSONSchema b) (set_BOM_XMLNS (BOM_XMLNS b) (marked sv b))) = b /\
  BOM_SpecVersion (marked sv b) = sv /\ BOM_XMLNS (marked sv b) = namespace_of sv /\ BOM_JSONSchema (marked sv b) = schema_of sv.
Proof. intros sv b. destruct b. repeat split. Qed.
Print Assumptions C10_marked.

(** Findings: documents that are changed although their version defines all they use:
    the component type cryptographic-asset in 1.6 and 1.7, the scope "excluded" in 1.1
    (defined by the XML schema), and the description of a data flow in 1.5. *)
Definition crypto_asset : BOM := with_component (set_Component_Type "cryptographic-asset" zero_Component).
Definition excluded : BOM :=
  with_component (set_Component_Type "library" (set_Component_Version "1" (set_Component_Scope "excluded" zero_Component))).
Definition described : BOM :=
  set_BOM_Services (list_of [set_Service_Data (list_of [set_DataClassification_Description "d" zero_DataClassification]) zero_Service]) NewBOM.

Ltac plain_field :=
  first [ exact I | intros _; reflexivity | intros L; exfalso; vm_compute in L; discriminate L
        | eapply (not_newer_literal _ _ _ v1_7); [reflexivity|vlia]
        | eapply (not_newer_literal _ _ _ v1_6); [reflexivity|vlia]
        | eapply (not_newer_literal _ _ _ v1_2); [reflexivity|vlia]
        | eapply (not_newer_literal _ _ _ v1_1); [reflexivity|vlia]
        | split; [|exact I] | idtac ].
Ltac within_closed :=
  unfold within_BOM; conjs; plain_field;
  rewrite ?within_Component_fix, ?within_Service_fix; unfold within_Component_, within_Service_; conjs; plain_field.

Theorem C10_refuted :
  (within_BOM v1_6 crypto_asset /\ convert v1_6 crypto_asset <> marked v1_6 crypto_asset) /\
  (within_BOM v1_7 crypto_asset /\ convert v1_7 crypto_asset <> marked v1_7 crypto_asset) /\
  (within_BOM v1_1 excluded /\ convert v1_1 excluded <> marked v1_1 excluded) /\
  (within_BOM v1_5 described /\ convert v1_5 described <> marked v1_5 described).
Proof.
  split; [|split; [|split]]; (split; [|vm_compute; discriminate]); within_closed.
  unfold within_DataClassification. conjs; plain_field.
Qed.
Print Assumptions C10_refuted.

(** A document with nested components that meets the hypotheses for 1.2. *)
Definition plain (name : string) (l : list Component) : Component :=
  set_Component_Name name (set_Component_Type "library" (set_Component_Version "1" (set_Component_Scope "required"
    (set_Component_Hashes (list_of [mkHash "BLAKE3" "b"]) (set_Component_Components (list_of l) zero_Component))))).
Definition plain_tree : list Component := [plain "a" [plain "b" []; plain "c" [plain "d" []]]].

Lemma all_in_list {A} (P : A -> Prop) p l : p = list_of l -> all_of P l -> all_in P p.
Proof. intros -> H. exact H. Qed.

Lemma all_of_nil {A} (P : A -> Prop) : all_of P [].
Proof. exact I. Qed.
Lemma all_of_cons {A} (P : A -> Prop) x l : P x -> all_of P l -> all_of P (x :: l).
Proof. exact (fun H K => conj H K). Qed.
Lemma plain_tree_all (P : Component -> Prop) : (forall n l, all_of P l -> P (plain n l)) -> all_of P plain_tree.
Proof. intros H. unfold plain_tree. repeat first [apply all_of_nil | apply all_of_cons | apply H]. Qed.

Lemma plain_within n l : all_of (within_Component v1_2) l -> within_Component v1_2 (plain n l).
Proof.
  intros Hl. rewrite within_Component_fix. unfold within_Component_.
  conjs;
    lazymatch goal with |- all_in (within_Component _) _ => apply (all_in_list _ _ l); [reflexivity|exact Hl] | |- _ => plain_field end.
  apply (not_newer_literal _ _ _ v1_2); [reflexivity|vlia].
Qed.
Lemma plain_stable n l : all_of (stable_component v1_2) l -> stable_component v1_2 (plain n l).
Proof.
  intros Hl. rewrite stable_component_fix. split; [exists v1_0; cbn; tauto|]. split; [right; split; [exists v1_0; cbn; tauto|intros _; discriminate]|].
  split; [split; [discriminate|split; [exists v1_2; cbn; tauto|exact I]]|]. split; [intros L; vm_compute in L; discriminate L|].
  split; [intros _; discriminate|]. split; [intros L; vm_compute in L; discriminate L|]. split; [exact I|]. apply (all_in_list _ _ l); [reflexivity|exact Hl].
Qed.
Lemma plain_tree_within : all_of (within_Component v1_2) plain_tree.
Proof. exact (plain_tree_all _ plain_within). Qed.
Lemma plain_tree_stable : all_of (stable_component v1_2) plain_tree.
Proof. exact (plain_tree_all _ plain_stable). Qed.

Example C10_nonvacuous :
  let b := set_BOM_Components (list_of plain_tree) NewBOM in
  within_BOM v1_2 b /\ stable v1_2 b /\ convert v1_2 b <> b.
Proof.
  cbv zeta. split; [|split; [|vm_compute; discriminate]].
  - unfold within_BOM. conjs;
      lazymatch goal with |- all_in (within_Component _) _ => apply (all_in_list _ _ plain_tree); [reflexivity|exact plain_tree_within] | |- _ => plain_field end.
  - split; [exact I|]. split; [apply (all_in_list _ _ plain_tree); [reflexivity|exact plain_tree_stable]|]. split; [exact I|split; exact I].
Qed.

(** C07, C09: the values a conversion treats as defined in a version are those of the
    schemas. Exceptions: component type cryptographic-asset (never accepted), scope
    excluded (accepted from 1.2, defined in 1.1), and the reference types missing in
    the converter's list. *)
Theorem C07_algorithms_from_schema : forall sv s,
  in_enum hash_algorithms sv s = true <-> defined_in HashAlgorithm_values sv s.
Proof. intros. apply (closed_table []); [reflexivity|intros []]. Qed.
Print Assumptions C07_algorithms_from_schema.

Theorem C09_component_types_from_schema : forall sv s, s <> "cryptographic-asset" ->
  in_enum component_types sv s = true <-> defined_in ComponentType_values sv s.
Proof. intros sv s H. apply (closed_table ["cryptographic-asset"]); [reflexivity|intros [E|[]]; auto]. Qed.
Print Assumptions C09_component_types_from_schema.

Theorem C09_scopes_from_schema : forall sv s, s <> "excluded" ->
  in_enum scopes sv s = true <-> defined_in Scope_values sv s.
Proof. intros sv s H. apply (closed_table_but ["excluded"]); [reflexivity|intros [E|[]]; auto]. Qed.
Print Assumptions C09_scopes_from_schema.

Theorem C09_scoring_methods_from_schema : forall sv s,
  in_enum scoring_methods sv s = true <-> defined_in ScoringMethod_values sv s.
Proof. intros. apply (closed_table []); [reflexivity|intros []]. Qed.
Print Assumptions C09_scoring_methods_from_schema.

Theorem C09_reference_types_from_schema : forall sv s w,
  In (s, w) ExternalReferenceType_values -> ~ In s (map fst unlisted_reference_types) ->
  in_open_enum external_reference_types v1_1 sv s = true <-> defined_in ExternalReferenceType_values sv s.
Proof. intros sv s w H N. eapply (open_table (map fst unlisted_reference_types)); [reflexivity|exact N|exact H]. Qed.
Print Assumptions C09_reference_types_from_schema.

Theorem C09_aggregates_from_schema : forall sv s w, In (s, w) CompositionAggregate_values ->
  in_open_enum composition_aggregates v1_3 sv s = true <-> defined_in CompositionAggregate_values sv s.
Proof. intros sv s w H. eapply (open_table []); [reflexivity|intros []|exact H]. Qed.
Print Assumptions C09_aggregates_from_schema.

Example C09_from_schema_nonvacuous :
  defined_in ScoringMethod_values v1_5 "SSVC" /\ ~ defined_in ScoringMethod_values v1_4 "SSVC" /\
  ~ In "log" (map fst unlisted_reference_types) /\ In ("log", v1_5) ExternalReferenceType_values /\
  in_open_enum external_reference_types v1_1 v1_4 "log" = false.
Proof.
  split; [exists v1_5; split; [cbn; auto 10|vlia]|].
  split; [rewrite <- C09_scoring_methods_from_schema; vm_compute; discriminate|].
  split; [cbn; intuition discriminate|]. split; [cbn; auto 40|reflexivity].
Qed.
