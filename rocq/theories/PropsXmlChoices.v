(** Property theorems for the either-or types in XML: C24, C25. *)
From Verif Require Import Base Types Univ TypeTable Wt Reify Consts Version ConvertModel ConvertSpec ConvertReach ExampleBom JsonModel JsonChoices
  XmlModel XmlOffence XmlErrors XmlPaths XmlChoices JsonSpec XmlTop XmlNs XmlProofs PropsJson PropsXml.
Local Open Scope string_scope.

(** Encoding fails exactly if something that would be written is one of the listed
    offences: both alternatives of tools, a certificate state, a certificate extension, an
    asserter (organization and individual), a license choice or an environment variable;
    id and name of a license, or neither. *)
Theorem C24_xml_fails_exactly : forall b, (exists els, bom_to_xml b = Ok els) <-> forall t v, xwritten (TRef "BOM") (reify_BOM b) t v -> ~ xoffence t v.
Proof. exact xml_fails_iff. Qed.

Lemma points {A} (f : A -> val) (p : ptr A) : p <> None -> is_some (vptr f p).
Proof. destruct p as [x|]; [intros _; exists (f x); reflexivity|congruence]. Qed.

(** The same for the Go types. *)
Theorem C24_xml_partial : forall b els, bom_to_xml b = Ok els ->
  (forall x, xwritten (TRef "BOM") (reify_BOM b) (TRef "ToolsChoice") (reify_ToolsChoice x) ->
     ~ (ToolsChoice_Tools x <> None /\ (ToolsChoice_Components x <> None \/ ToolsChoice_Services x <> None))) /\
  (forall x, xwritten (TRef "BOM") (reify_BOM b) (TRef "CertificateState") (reify_CertificateState x) ->
     ~ (CertificateState_Predefined x <> None /\ CertificateState_Custom x <> None)) /\
  (forall x, xwritten (TRef "BOM") (reify_BOM b) (TRef "CertificateExtension") (reify_CertificateExtension x) ->
     ~ (CertificateExtension_Common x <> None /\ CertificateExtension_Custom x <> None)) /\
  (forall x, xwritten (TRef "BOM") (reify_BOM b) (TRef "AsserterChoice") (reify_AsserterChoice x) ->
     ~ (AsserterChoice_Organization x <> None /\ AsserterChoice_Individual x <> None)) /\
  (forall x, xwritten (TRef "BOM") (reify_BOM b) (TRef "License") (reify_License x) ->
     (License_ID x <> "" /\ License_Name x = "") \/ (License_ID x = "" /\ License_Name x <> "")) /\
  (forall l x, xwritten (TRef "BOM") (reify_BOM b) (TRef "Licenses") (vslice reify_LicenseChoice (Some l)) -> In x l ->
     ~ (LicenseChoice_License x <> None /\ LicenseChoice_Expression x <> "")) /\
  (forall l x, xwritten (TRef "BOM") (reify_BOM b) (TRef "EnvironmentVariables") (vslice reify_EnvironmentVariableChoice (Some l)) -> In x l ->
     ~ (EnvironmentVariableChoice_Property x <> None /\ EnvironmentVariableChoice_Value x <> "")).
Proof.
  intros b els E. assert (K := proj1 (C24_xml_fails_exactly b) (ex_intro _ els E)).
  split; [|split; [|split; [|split; [|split; [|split]]]]].
  - intros x W (A & B). apply (K _ _ W). apply xo_tools; [apply points, A|]. destruct B as [B|B]; [left|right]; apply points, B.
  - intros x W (A & B). apply (K _ _ W). apply xo_state; apply points; assumption.
  - intros x W (A & B). apply (K _ _ W). apply xo_extension; apply points; assumption.
  - intros x W (A & B). apply (K _ _ W). apply xo_asserter; apply points; assumption.
  - intros x W. destruct (string_dec (License_ID x) "") as [Ei|Ni]; destruct (string_dec (License_Name x) "") as [En|Nn]; auto; exfalso;
      apply (K _ _ W); destruct x as [ref id name ack text url lic prop]; cbn [License_ID License_Name] in *.
    + subst. apply xo_license_none.
    + apply xo_license_both; assumption.
  - intros l x W I (A & B). apply (K _ _ W). eapply xo_choice; [exact (in_map reify_LicenseChoice l x I)|apply points, A|exact B].
  - intros l x W I (A & B). apply (K _ _ W). eapply xo_environment; [exact (in_map reify_EnvironmentVariableChoice l x I)|apply points, A|exact B].
Qed.

(** Tools of the metadata, in plain words. *)
Theorem C24_xml_metadata_tools : forall b els m x, bom_to_xml b = Ok els -> BOM_Metadata b = Some m -> Metadata_Tools m = Some x ->
  ToolsChoice_Tools x = None \/ (ToolsChoice_Components x = None /\ ToolsChoice_Services x = None).
Proof.
  intros b els m x E M T. destruct (ToolsChoice_Tools x) as [a|] eqn:A; [|left; reflexivity]. right.
  destruct (C24_xml_partial b els E) as (K & _). specialize (K x (xwritten_trans _ _ _ _ _ _ (xw_metadata b m M) (xw_tools m x T))).
  split; [destruct (ToolsChoice_Components x) eqn:Q|destruct (ToolsChoice_Services x) eqn:Q]; trivial; exfalso; apply K; (split; [congruence|]);
    [left|right]; congruence.
Qed.

(** Every component of the BOM, at any path through components, ancestors, descendants and
    variants. *)
Theorem C24_xml_components : forall b els r steps c, bom_to_xml b = Ok els -> component_at b r steps = Some c ->
  (forall k p x, Component_CryptoProperties c = Some k -> CryptoProperties_CertificateProperties k = Some p ->
     In x (members (CertificateProperties_CertificateState p)) -> CertificateState_Predefined x = None \/ CertificateState_Custom x = None) /\
  (forall k p x, Component_CryptoProperties c = Some k -> CryptoProperties_CertificateProperties k = Some p ->
     In x (members (CertificateProperties_CertificateExtensions p)) -> CertificateExtension_Common x = None \/ CertificateExtension_Custom x = None) /\
  (forall p x, In p (members (Component_PatentAssertions c)) -> PatentAssertion_Asserter p = Some x -> AsserterChoice_Organization x = None \/ AsserterChoice_Individual x = None) /\
  (forall x, In x (members (Component_Licenses c)) -> LicenseChoice_License x = None \/ LicenseChoice_Expression x = "") /\
  (forall x l, In x (members (Component_Licenses c)) -> LicenseChoice_License x = Some l -> License_ID l = "" \/ License_Name l = "") /\
  (forall e x, Component_Evidence c = Some e -> In x (members (Evidence_Licenses e)) -> LicenseChoice_License x = None \/ LicenseChoice_Expression x = "").
Proof.
  intros b els r steps c E P. pose proof (component_xwritten b r steps c P) as W. destruct (C24_xml_partial b els E) as (_ & K2 & K3 & K5 & K4 & K6 & _).
  split; [|split; [|split; [|split; [|split]]]].
  - intros k p x Hk Hp Hx. specialize (K2 x (xwritten_trans _ _ _ _ _ _ W (xwritten_trans _ _ _ _ _ _ (xw_crypto c k Hk) (xwritten_trans _ _ _ _ _ _ (xw_certificate k p Hp) (xw_state p x Hx))))).
    destruct (CertificateState_Predefined x); [|left; reflexivity]. destruct (CertificateState_Custom x); [|right; reflexivity].
    exfalso. apply K2. split; discriminate.
  - intros k p x Hk Hp Hx. specialize (K3 x (xwritten_trans _ _ _ _ _ _ W (xwritten_trans _ _ _ _ _ _ (xw_crypto c k Hk) (xwritten_trans _ _ _ _ _ _ (xw_certificate k p Hp) (xw_extension p x Hx))))).
    destruct (CertificateExtension_Common x); [|left; reflexivity]. destruct (CertificateExtension_Custom x); [|right; reflexivity].
    exfalso. apply K3. split; discriminate.
  - intros p x Hp Hx. specialize (K5 x (xwritten_trans _ _ _ _ _ _ W (xwritten_trans _ _ _ _ _ _ (xw_assertion c p Hp) (xw_asserter p x Hx)))).
    destruct (AsserterChoice_Organization x); [|left; reflexivity]. destruct (AsserterChoice_Individual x); [|right; reflexivity].
    exfalso. apply K5. split; discriminate.
  - intros x Hx. destruct (Component_Licenses c) as [[l|]|] eqn:L; try contradiction.
    specialize (K6 l x (xwritten_trans _ _ _ _ _ _ W (xw_licenses c _ L)) Hx). destruct (LicenseChoice_License x); [|left; reflexivity].
    destruct (string_dec (LicenseChoice_Expression x) ""); [right; assumption|]. exfalso. apply K6. split; [discriminate|assumption].
  - intros x k Hx Hk. destruct (Component_Licenses c) as [[l|]|] eqn:L; try contradiction.
    specialize (K4 k (xwritten_trans _ _ _ _ _ _ W (xwritten_trans _ _ _ _ _ _ (xw_licenses c _ L) (xw_license l x k Hx Hk)))).
    destruct K4 as [(_ & K)|(K & _)]; auto.
  - intros e x He Hx. destruct (Evidence_Licenses e) as [[l|]|] eqn:L; try contradiction.
    specialize (K6 l x (xwritten_trans _ _ _ _ _ _ W (xwritten_trans _ _ _ _ _ _ (xw_evidence c e He) (xw_evidence_licenses e _ L))) Hx). destruct (LicenseChoice_License x); [|left; reflexivity].
    destruct (string_dec (LicenseChoice_Expression x) ""); [right; assumption|]. exfalso. apply K6. split; [discriminate|assumption].
Qed.
Example C24_xml_nonvacuous : (exists els, bom_to_xml ex_xml = Ok els) /\ (exists e, bom_to_xml ex_bom = Err e) /\
  bom_to_xml (asserted (mkAsserterChoice (Some an_org) (Some a_person) None)) = Err XBoth /\
  bom_to_xml (env (mkEnvironmentVariableChoice (Some a_property) "PATH")) = Err XBoth /\
  bom_to_xml (licensed (set_LicenseChoice_Expression "MIT" ex_license)) = Err XBoth.
Proof. split; [eexists; vm_compute; reflexivity|]. split; [eexists; vm_compute; reflexivity|]. split; [|split]; vm_compute; reflexivity. Qed.

(** What is not refused: evidence identities, the reference of an asserter beside an
    organization, a dataset and a patent choice are written with both alternatives set and
    one of them is lost. *)
Definition identified (x : EvidenceIdentityChoice) : BOM := with_component (set_Component_Evidence (Some (set_Evidence_Identity (Some x) zero_Evidence)) zero_Component).
Definition an_identity (f : string) := set_EvidenceIdentity_Field f zero_EvidenceIdentity.
Definition patented (x : PatentChoice) : BOM := set_BOM_Definitions (Some (set_Definitions_Patents (list_of [x]) zero_Definitions)) NewBOM.
Definition a_patent := set_Patent_PatentNumber "1" zero_Patent.
Definition a_family := set_PatentFamily_FamilyID "2" zero_PatentFamily.
Theorem C24_xml_refuted :
  xml_trip (identified (mkEvidenceIdentityChoice (Some (an_identity "cpe")) (list_of [an_identity "purl"]))) =
    xml_trip (identified (mkEvidenceIdentityChoice None (list_of [an_identity "purl"]))) /\
  xml_trip (asserted (mkAsserterChoice (Some an_org) None (Some "r"))) = xml_trip (asserted (mkAsserterChoice (Some an_org) None None)) /\
  xml_trip (patented (mkPatentChoice (Some a_patent) (Some a_family))) = xml_trip (patented (mkPatentChoice (Some a_patent) None)) /\
  xml_trip (patented (mkPatentChoice (Some a_patent) None)) <> None.
Proof. split; [vm_compute; reflexivity|]. split; [vm_compute; reflexivity|]. split; [vm_compute; reflexivity|]. vm_compute. discriminate. Qed.

(** ** C25: whatever is decoded has at most one alternative *)
Theorem C25_xml : forall entries x c, bom_of_xml entries x zero_BOM = Ok c ->
  (forall x, inside (TRef "BOM") (reify_BOM c) (TRef "ToolsChoice") (reify_ToolsChoice x) ->
     ToolsChoice_Tools x = None \/ (ToolsChoice_Components x = None /\ ToolsChoice_Services x = None)) /\
  (forall x, inside (TRef "BOM") (reify_BOM c) (TRef "EvidenceIdentityChoice") (reify_EvidenceIdentityChoice x) ->
     EvidenceIdentityChoice_Identity x = None \/ EvidenceIdentityChoice_Identities x = None) /\
  (forall x, inside (TRef "BOM") (reify_BOM c) (TRef "CertificateState") (reify_CertificateState x) ->
     CertificateState_Predefined x = None \/ CertificateState_Custom x = None) /\
  (forall x, inside (TRef "BOM") (reify_BOM c) (TRef "CertificateExtension") (reify_CertificateExtension x) ->
     CertificateExtension_Common x = None \/ CertificateExtension_Custom x = None) /\
  (forall x, inside (TRef "BOM") (reify_BOM c) (TRef "PatentChoice") (reify_PatentChoice x) ->
     PatentChoice_Patent x = None \/ PatentChoice_PatentFamily x = None) /\
  (forall x, inside (TRef "BOM") (reify_BOM c) (TRef "MLDatasetChoice") (reify_MLDatasetChoice x) ->
     MLDatasetChoice_Ref x = "" \/ MLDatasetChoice_ComponentData x = None) /\
  (forall x, inside (TRef "BOM") (reify_BOM c) (TRef "EnvironmentVariableChoice") (reify_EnvironmentVariableChoice x) ->
     EnvironmentVariableChoice_Property x = None \/ EnvironmentVariableChoice_Value x = "") /\
  (forall x, inside (TRef "BOM") (reify_BOM c) (TRef "LicenseChoice") (reify_LicenseChoice x) ->
     LicenseChoice_License x = None \/ LicenseChoice_Expression x = "").
Proof.
  intros entries doc c E. apply decoded_bom in E.
  assert (N : forall A (f : A -> val) p, nothing (vptr f p) -> p = None) by (intros A f [y|] Q; [discriminate Q|reflexivity]).
  assert (T : forall s, VStr s = VStr "" -> s = "") by (intros s [= Q]; exact Q).
  split; [|split; [|split; [|split; [|split; [|split; [|split]]]]]]; intros x I; apply (decent_inside _ _ _ _ I) in E; destruct x; destruct E as (_ & [Q|Q]);
    try (left; first [apply N in Q|apply T in Q]; exact Q); try (right; first [apply N in Q|apply T in Q]; exact Q).
  right. destruct Q as (Q1 & Q2). apply N in Q1, Q2. split; assumption.
Qed.
(** A document with tools decodes. *)
Example C25_xml_nonvacuous : exists e c m x, bom_to_xml ex_xml = Ok [e] /\ bom_of_xml xmlNamespaces (xml_seen true e) zero_BOM = Ok c /\
  BOM_Metadata c = Some m /\ Metadata_Tools m = Some x /\ ToolsChoice_Components x <> None /\
  inside (TRef "BOM") (reify_BOM c) (TRef "ToolsChoice") (reify_ToolsChoice x).
Proof.
  eexists _, _, _, _. split; [vm_compute; reflexivity|]. split; [vm_compute; reflexivity|]. split; [reflexivity|]. split; [reflexivity|]. split; [discriminate|].
  eapply inside_part; [do 7 right; left; reflexivity|]. eapply inside_part; [left; reflexivity|]. eapply inside_part; [right; right; left; reflexivity|].
  eapply inside_part; [left; reflexivity|]. apply inside_here.
Qed.

(** Not so: the asserter of a patent assertion takes all the elements it finds, and a
    license both an id and a name. *)
Definition node (name : string) (kids : list xml) : xml := XElem "" name [] kids.
Definition asserted_twice : xml :=
  node "bom" [node "components" [node "component" [node "patentAssertions" [node "patentAssertion" [node "asserter"
    [node "organization" [node "name" [XText "o"]]; node "contact" [node "name" [XText "c"]]]]]]]].
Definition licensed_twice : xml :=
  node "bom" [node "components" [node "component" [node "licenses" [node "license" [node "id" [XText "MIT"]; node "name" [XText "mine"]]]]]].
Definition first_component (b : BOM) : option Component := match members (BOM_Components b) with c :: _ => Some c | [] => None end.
Theorem C25_xml_refuted :
  (exists b c p a, bom_of_xml xmlNamespaces asserted_twice zero_BOM = Ok b /\ first_component b = Some c /\ members (Component_PatentAssertions c) = [p] /\
     PatentAssertion_Asserter p = Some a /\ AsserterChoice_Organization a <> None /\ AsserterChoice_Individual a <> None) /\
  (exists b c p l, bom_of_xml xmlNamespaces licensed_twice zero_BOM = Ok b /\ first_component b = Some c /\ members (Component_Licenses c) = [p] /\
     LicenseChoice_License p = Some l /\ License_ID l = "MIT" /\ License_Name l = "mine" /\ bom_to_xml b = Err XBoth).
Proof.
  split; (eexists _, _, _, _; split; [vm_compute; reflexivity|]; split; [vm_compute; reflexivity|]; split; [vm_compute; reflexivity|]; split; [vm_compute; reflexivity|]).
  - split; vm_compute; discriminate.
  - split; [vm_compute; reflexivity|]. split; vm_compute; reflexivity.
Qed.

Definition xml_choice_theorems := (C24_xml_fails_exactly, C24_xml_partial, C24_xml_metadata_tools, C24_xml_components, C24_xml_refuted, C25_xml, C25_xml_refuted).
Print Assumptions xml_choice_theorems.
