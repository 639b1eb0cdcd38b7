(** Property theorems for JSON, on document trees: C15, C16, C18, C24, C25, C34, C35.
    [json_encode]/[json_encode_version] model Encode/EncodeVersion of the JSON encoder up
    to the text (JsonText.v), [bom_of_json _ zero_BOM] decoding into a fresh BOM. *)
From Verif Require Import Base Types Univ TypeTable Wt Reify Consts LinkModel Version ConvertModel ConvertSpec ConvertReach ConvertPropProofs Numbers Utf8 GobModel GobSpec GobProofs
  JsonModel JsonBack JsonSpec JsonRound JsonErrors JsonBlame JsonVersions JsonBom JsonChoices ExampleBom.
From Coq Require Import Lia.
Local Open Scope string_scope.
Local Open Scope Z_scope.

(** A BOM that uses many of the types, given by its document. *)
Definition str_member (k v : string) : string * json := (k, JStr v).
Definition ex_doc : json := JObj
  [ str_member "$schema" "http://cyclonedx.org/schema/bom-1.6.schema.json"; str_member "bomFormat" "CycloneDX"; str_member "specVersion" "1.6";
    ("version", JNum "2");
    ("metadata", JObj [("tools", JObj [("components", JArr [JObj [str_member "type" "application"; str_member "name" "t"]])])]);
    ("components", JArr
      [ JObj [ str_member "type" "library"; str_member "name" "acme"; ("licenses", JArr [JObj [("license", JObj [str_member "id" "MIT"])]; JObj [str_member "expression" "MIT OR GPL-2.0"]]);
               ("hashes", JArr [JObj [str_member "alg" "SHA-1"; str_member "content" "00"]]);
               ("evidence", JObj [("identity", JArr [JObj [str_member "field" "purl"; ("confidence", JNum "0.5")]])]);
               ("patentAssertions", JArr [JObj [str_member "assertionType" "ownership"; ("asserter", JObj [("organization", JObj [str_member "name" "org"])])]]);
               ("components", JArr [JObj [str_member "type" "file"; str_member "name" "inner"]]) ];
        JObj [ str_member "type" "cryptographic-asset"; str_member "name" "c";
               ("cryptoProperties", JObj [str_member "assetType" "certificate";
                  ("certificateProperties", JObj [("certificateState", JArr [JObj [str_member "state" "active"]; JObj [str_member "name" "own"]]);
                                                  ("certificateExtensions", JArr [JObj [str_member "commonExtensionName" "keyUsage"; str_member "commonExtensionValue" "v"]])])]) ] ]);
    ("services", JArr [JObj [str_member "name" "s"; ("authenticated", JBool false)]]);
    ("dependencies", JArr [JObj [str_member "ref" "a"; ("dependsOn", JArr [JStr "b"; JStr "c"])]]);
    ("formulation", JArr [JObj [("workflows", JArr [JObj [str_member "bom-ref" "w"; str_member "uid" "u"; ("taskTypes", JArr [JStr "build"]);
       ("inputs", JArr [JObj [("environmentVars", JArr [JStr "PATH"; JObj [str_member "name" "n"; str_member "value" "v"]])]])]])]]) ].
Definition ex_json : BOM := match bom_of_json ex_doc zero_BOM with Ok b => b | Err _ => zero_BOM end.
Lemma ex_json_decodes : bom_of_json ex_doc zero_BOM = Ok ex_json.
Proof. vm_compute. reflexivity. Qed.

(** ** C16: round trip *)

(** What encodes can be decoded, and the result is the BOM except for the losses that
    [jback] makes explicit. *)
Theorem C16_decodes_partial : forall esc b o, sane (TRef "BOM") (reify_BOM b) -> json_encode esc b = Ok o -> too_deep (erase o) = false ->
  exists c, bom_of_json (erase o) zero_BOM = Ok c /\ reify_BOM c = jback (TRef "BOM") (reify_BOM b).
Proof. intros esc b o S E D. apply encode_writes in E as (E & _). exact (bom_back esc b o S E D). Qed.

(** Decoding gives the BOM back (without the XML name and namespace) exactly if nothing
    in it is lost: strings are valid UTF-8, fields that JSON leaves out are zero, choices
    have one alternative. *)
Theorem C16_round_trip_partial : forall esc b o, sane (TRef "BOM") (reify_BOM b) -> json_encode esc b = Ok o -> too_deep (erase o) = false ->
  bom_of_json (erase o) zero_BOM = Ok (json_view b) <-> lossless (TRef "BOM") (reify_BOM (json_view b)).
Proof. exact bom_round. Qed.

(** Without the proviso: encoding/json refuses to decode what is nested too deeply, and
    that is the only other outcome. *)
Theorem C16_any_depth : forall esc b o, sane (TRef "BOM") (reify_BOM b) -> json_encode esc b = Ok o ->
  (exists c, bom_of_json (erase o) zero_BOM = Ok c /\ reify_BOM c = jback (TRef "BOM") (reify_BOM b)) \/ bom_of_json (erase o) zero_BOM = Err ETooDeep.
Proof.
  intros esc b o S E. destruct (too_deep (erase o)) eqn:D; [right; unfold bom_of_json; rewrite D; reflexivity|]. left. exact (C16_decodes_partial esc b o S E D).
Qed.
Theorem C16_decoded : forall esc b o c, sane (TRef "BOM") (reify_BOM b) -> json_encode esc b = Ok o -> bom_of_json (erase o) zero_BOM = Ok c ->
  reify_BOM c = jback (TRef "BOM") (reify_BOM b) /\ (c = json_view b <-> lossless (TRef "BOM") (reify_BOM (json_view b))).
Proof.
  intros esc b o c S E X. destruct (too_deep (erase o)) eqn:D; [unfold bom_of_json in X; rewrite D in X; discriminate|]. split.
  - destruct (C16_decodes_partial esc b o S E D) as (c' & X' & R). rewrite X in X'. injection X' as <-. exact R.
  - rewrite <- (C16_round_trip_partial esc b o S E D), X. split; congruence.
Qed.
(** 5001 components within each other encode and do not decode. *)
Lemma nest_jsane n : sane (TRef "Component") (reify_Component (nest n)).
Proof. induction n as [|n IH]; [lazy; tauto|]. cbn. repeat (split; [exact I|]). split; [split; [exact IH|exact I]|]. repeat (split; [exact I|]). exact I. Qed.
Lemma nest_bom_jsane n : sane (TRef "BOM") (reify_BOM (b_nest n)).
Proof. pose proof (nest_jsane n) as H. unfold b_nest. cbn. repeat (split; [first [exact I|exact eq_refl|exact (conj I (conj I I))]|]). split; [split; [exact H|exact I]|]. repeat (split; [exact I|]). exact I. Qed.
Definition b_deep : BOM := b_nest (N.to_nat 5000).
Definition after_encoding {A} (f : out -> A) (r : result json_encode_err out) : option A := match r with Ok o => Some (f o) | Err _ => None end.
Theorem C16_deep_refuted : exists b o, sane (TRef "BOM") (reify_BOM b) /\ json_encode true b = Ok o /\ bom_of_json (erase o) zero_BOM = Err ETooDeep.
Proof.
  assert (H : after_encoding (fun o => too_deep (erase o)) (json_encode true b_deep) = Some true) by (vm_compute; reflexivity).
  exists b_deep. destruct (json_encode true b_deep) as [o|]; [|discriminate]. exists o. split; [apply nest_bom_jsane|]. split; [reflexivity|].
  injection H as H. unfold bom_of_json. rewrite H. reflexivity.
Qed.

(** The depth limit of package json is never reached by a BOM of no more than 10000 levels. *)
Theorem C16_depth : forall esc b o, json_encode esc b = Ok o -> (nesting (reify_BOM b) <= max_depth)%N -> too_deep (erase o) = false.
Proof.
  intros esc b o E N. apply encode_writes in E as (E & _). rewrite bom_to_json_eq in E.
  pose proof (all_shallow (reify_BOM b) (TRef "BOM") esc o (ReifyFacts.typed_BOM b) E) as D. unfold too_deep. apply N.ltb_ge. lia.
Qed.

Example C16_nonvacuous : exists o, sane (TRef "BOM") (reify_BOM ex_json) /\ json_encode true ex_json = Ok o /\ too_deep (erase o) = false /\
  bom_of_json (erase o) zero_BOM = Ok (json_view ex_json) /\ json_view ex_json = ex_json /\
  map Component_Name (members (BOM_Components ex_json)) = ["acme"; "c"].
Proof.
  eexists. split; [vm_compute; repeat split|]. split; [vm_compute; reflexivity|]. split; [vm_compute; reflexivity|].
  split; [vm_compute; reflexivity|]. split; vm_compute; reflexivity.
Qed.

(** Losses. A signature with a single signer disappears; a list that is nil behind a
    pointer, and an empty identity choice, come back as nothing or as something else; a
    certificate state without a state comes back as a custom state. *)
Definition trip (b : BOM) : option BOM :=
  match json_encode true b with
  | Ok o => match bom_of_json (erase o) zero_BOM with Ok c => Some c | Err _ => None end
  | Err _ => None
  end.
Definition with_component (c : Component) : BOM := set_BOM_Components (list_of [c]) NewBOM.
Definition first_component (b : BOM) : option Component := nth_error (members (BOM_Components b)) 0.
Definition b_signed : BOM := set_BOM_Signature (Some (set_JSFSignature_JSFSigner (Some (set_JSFSigner_Value "sig" (zero_JSFSigner))) zero_JSFSignature)) NewBOM.
Definition b_no_hashes : BOM := with_component (set_Component_Hashes (Some None) zero_Component).
Definition b_no_identity : BOM := with_component (set_Component_Evidence (Some (set_Evidence_Identity (Some (mkEvidenceIdentityChoice (Some zero_EvidenceIdentity) None)) zero_Evidence)) zero_Component).
Definition state_of (s : CertificateState) : BOM :=
  with_component (set_Component_CryptoProperties (Some (set_CryptoProperties_CertificateProperties
    (Some (set_CertificateProperties_CertificateState (list_of [s]) zero_CertificateProperties)) zero_CryptoProperties)) zero_Component).
Theorem C16_losses_refuted :
  option_map BOM_Signature (trip b_signed) = Some (Some zero_JSFSignature) /\
  option_map (fun b => option_map Component_Hashes (first_component b)) (trip b_no_hashes) = Some (Some None) /\
  trip (state_of (mkCertificateState (Some zero_PredefinedCertificateState) None)) =
    trip (state_of (mkCertificateState None (Some zero_CustomCertificateState))) /\
  option_map BOM_SpecVersion (trip (set_BOM_SpecVersion 99 NewBOM)) = None /\
  json_encode true (set_BOM_SpecVersion 99 NewBOM) <> Err EUnsupportedVersion.
Proof. repeat split; try (vm_compute; reflexivity). vm_compute. discriminate. Qed.

(** ** C34: a decoded BOM is stable *)

(** A BOM that was decoded from any document without duplicate keys, if it encodes, is
    decoded to the same BOM again. *)
Theorem C34_decoded_again_partial : forall j c esc o, doc_utf8 j -> doc_unique j ->
  bom_of_json j zero_BOM = Ok c -> json_encode esc c = Ok o -> too_deep (erase o) = false -> bom_of_json (erase o) zero_BOM = Ok c.
Proof. exact bom_again. Qed.

(** Without the proviso on depth. *)
Theorem C34_decoded_again : forall j c esc o, doc_utf8 j -> doc_unique j ->
  bom_of_json j zero_BOM = Ok c -> json_encode esc c = Ok o -> bom_of_json (erase o) zero_BOM = Ok c \/ bom_of_json (erase o) zero_BOM = Err ETooDeep.
Proof.
  intros j c esc o U Q D E. destruct (too_deep (erase o)) eqn:T; [right; unfold bom_of_json; rewrite T; reflexivity|]. left. exact (bom_again j c esc o U Q D E T).
Qed.
(** The other outcome occurs: a null among the components at the deepest level that is
    allowed becomes an empty component, which is one level too deep. *)
Fixpoint nulls (n : nat) : json := match n with O => JNull | S m => JObj [str_member "type" "library"; str_member "name" "c"; ("components", JArr [nulls m])] end.
Definition doc_nulls (n : nat) : json := JObj [str_member "bomFormat" "CycloneDX"; str_member "specVersion" "1.6"; ("version", JNum "1"); ("components", JArr [nulls n])].
Lemma nulls_plain n : doc_utf8 (nulls n) /\ doc_unique (nulls n).
Proof.
  induction n as [|n (IH1 & IH2)]; [split; exact I|]. cbn [nulls doc_utf8 doc_unique list_all map fst snd str_member]. split.
  - repeat split; try (apply JsonOut.ascii_utf8; reflexivity). exact IH1.
  - split; [repeat (constructor; [cbn; intuition discriminate|]); constructor|]. repeat split. exact IH2.
Qed.
Theorem C34_deep_refuted : exists j c o, doc_utf8 j /\ doc_unique j /\ bom_of_json j zero_BOM = Ok c /\ json_encode true c = Ok o /\ bom_of_json (erase o) zero_BOM = Err ETooDeep.
Proof.
  assert (H : match bom_of_json (doc_nulls (N.to_nat 4999)) zero_BOM with Ok c => after_encoding (fun o => too_deep (erase o)) (json_encode true c) | Err _ => None end = Some true) by (vm_compute; reflexivity).
  exists (doc_nulls (N.to_nat 4999)). destruct (bom_of_json (doc_nulls (N.to_nat 4999)) zero_BOM) as [c|]; [|discriminate]. exists c. destruct (json_encode true c) as [o|]; [|discriminate]. exists o.
  injection H as H. revert H. generalize (N.to_nat 4999). intros n H. destruct (nulls_plain n) as (N1 & N2). split; [|split; [|split; [|split]]]; try reflexivity.
  - cbn [doc_nulls doc_utf8 list_all map fst snd str_member]. repeat split; try (apply JsonOut.ascii_utf8; reflexivity). exact N1.
  - cbn [doc_nulls doc_unique list_all map fst snd str_member]. split; [repeat (constructor; [cbn; intuition discriminate|]); constructor|]. repeat split. exact N2.
  - unfold bom_of_json. rewrite H. reflexivity.
Qed.

Example C34_nonvacuous : exists c o, doc_utf8 ex_doc /\ doc_unique ex_doc /\ bom_of_json ex_doc zero_BOM = Ok c /\ json_encode false c = Ok o /\ too_deep (erase o) = false /\ c <> zero_BOM.
Proof.
  exists ex_json. eexists. split; [|split; [|split; [exact ex_json_decodes|split; [vm_compute; reflexivity|split; [vm_compute; reflexivity|]]]]].
  - unfold ex_doc, str_member. cbn [doc_utf8 list_all map fst snd]. repeat split; apply JsonOut.ascii_utf8; reflexivity.
  - unfold ex_doc, str_member. cbn [doc_unique list_all map fst snd]. repeat split; repeat (constructor; [cbn; intuition discriminate|]); constructor.
  - intros E. apply (f_equal BOM_Version) in E. revert E. vm_compute. discriminate.
Qed.

(** Not every decoded BOM encodes: an empty tools object, and a license without id and
    name, are accepted when decoding and refused when encoding. *)
Definition doc_of (m : list (string * json)) : json := JObj (str_member "bomFormat" "CycloneDX" :: str_member "specVersion" "1.6" :: ("version", JNum "1") :: m).
Definition encodes_again (j : json) : option bool :=
  match bom_of_json j zero_BOM with Ok c => Some (match json_encode true c with Ok _ => true | Err _ => false end) | Err _ => None end.
Theorem C34_encodes_refuted :
  encodes_again (doc_of [("metadata", JObj [("tools", JObj [])])]) = Some false /\
  encodes_again (doc_of [("metadata", JObj [("licenses", JArr [JObj [("license", JObj [])]])])]) = Some false /\
  encodes_again (doc_of []) = Some true.
Proof. repeat split; vm_compute; reflexivity. Qed.

(** ** C24: both alternatives *)

(** Encoding succeeds exactly if the version is at least 1.2 and nothing that would be
    written is one of the listed offences. *)
Theorem C24_fails_exactly_partial : forall esc b, (nesting (reify_BOM b) <= max_depth)%N ->
  (exists o, json_encode esc b = Ok o) <->
  (SpecVersion1_2 <= BOM_SpecVersion b /\ forall t v, written (TRef "BOM") (reify_BOM b) t v -> ~ offence t v).
Proof. exact fails_iff. Qed.
(** Without a bound on depth: if it succeeds nothing offends, if it fails the version is too
    old, or something that would be written offends, or it is too deep for encoding/json. *)
Theorem C24_fails_exactly : forall esc b,
  match json_encode esc b with
  | Ok _ => SpecVersion1_2 <= BOM_SpecVersion b /\ forall t v, written (TRef "BOM") (reify_BOM b) t v -> ~ offence t v
  | Err e => BOM_SpecVersion b < SpecVersion1_2 \/ (exists t v, written (TRef "BOM") (reify_BOM b) t v /\ offence t v) \/
             (e = EMarshal ETooDeep /\ (max_depth < nesting (reify_BOM b))%N)
  end.
Proof.
  intros esc b. destruct (json_encode esc b) as [o|e] eqn:E.
  - split; [apply encode_writes in E; apply E|]. intros t v. exact (nothing_offends esc b o t v E).
  - exact (why_fails esc b e E).
Qed.

Theorem C24_json_partial : forall esc b o, json_encode esc b = Ok o ->
  (forall x, written (TRef "BOM") (reify_BOM b) (TRef "ToolsChoice") (reify_ToolsChoice x) ->
     ~ (ToolsChoice_Tools x <> None /\ (ToolsChoice_Components x <> None \/ ToolsChoice_Services x <> None))) /\
  (forall x, written (TRef "BOM") (reify_BOM b) (TRef "EvidenceIdentityChoice") (reify_EvidenceIdentityChoice x) ->
     ~ (EvidenceIdentityChoice_Identity x <> None /\ EvidenceIdentityChoice_Identities x <> None)) /\
  (forall x, written (TRef "BOM") (reify_BOM b) (TRef "CertificateState") (reify_CertificateState x) ->
     ~ (CertificateState_Predefined x <> None /\ CertificateState_Custom x <> None)) /\
  (forall x, written (TRef "BOM") (reify_BOM b) (TRef "CertificateExtension") (reify_CertificateExtension x) ->
     ~ (CertificateExtension_Common x <> None /\ CertificateExtension_Custom x <> None)) /\
  (forall x, written (TRef "BOM") (reify_BOM b) (TRef "License") (reify_License x) ->
     (License_ID x <> "" /\ License_Name x = "") \/ (License_ID x = "" /\ License_Name x <> "")).
Proof.
  intros esc b o E. split; [|split; [|split; [|split]]]; intros x W.
  - intros (A & B). apply (nothing_offends _ _ _ _ _ E W). apply off_tools_both; [apply points_some, A|]. destruct B as [B|B]; [left|right]; apply points_some, B.
  - intros (A & B). apply (nothing_offends _ _ _ _ _ E W). apply off_identity; apply points_some; assumption.
  - intros (A & B). apply (nothing_offends _ _ _ _ _ E W). apply off_state; apply points_some; assumption.
  - intros (A & B). apply (nothing_offends _ _ _ _ _ E W). apply off_extension; apply points_some; assumption.
  - destruct (string_dec (License_ID x) "") as [Ei|Ni]; destruct (string_dec (License_Name x) "") as [En|Nn]; auto; exfalso;
      apply (nothing_offends _ _ _ _ _ E W); destruct x as [ref id name ack text url lic prop]; cbn [License_ID License_Name] in *.
    + subst. apply off_license_none.
    + apply off_license_both; assumption.
Qed.

(** Tools of the metadata, in plain words. *)
Theorem C24_metadata_tools : forall esc b o m x, json_encode esc b = Ok o -> BOM_Metadata b = Some m -> Metadata_Tools m = Some x ->
  ToolsChoice_Tools x = None \/ (ToolsChoice_Components x = None /\ ToolsChoice_Services x = None).
Proof.
  intros esc b o m x E M T. destruct (ToolsChoice_Tools x) as [a|] eqn:A; [|left; reflexivity]. right.
  destruct (C24_json_partial esc b o E) as (K & _). specialize (K x (written_trans _ _ _ _ _ _ (w_metadata b m M) (w_tools m x T))).
  split; [destruct (ToolsChoice_Components x) eqn:Q|destruct (ToolsChoice_Services x) eqn:Q]; trivial; exfalso; apply K; (split; [congruence|]);
    [left|right]; congruence.
Qed.

(** The same for every component of the BOM, at any path through components, ancestors,
    descendants and variants. *)
Theorem C24_components : forall esc b o r steps c, json_encode esc b = Ok o -> component_at b r steps = Some c ->
  (forall e x, Component_Evidence c = Some e -> Evidence_Identity e = Some x ->
     EvidenceIdentityChoice_Identity x = None \/ EvidenceIdentityChoice_Identities x = None) /\
  (forall k p x, Component_CryptoProperties c = Some k -> CryptoProperties_CertificateProperties k = Some p ->
     In x (members (CertificateProperties_CertificateState p)) -> CertificateState_Predefined x = None \/ CertificateState_Custom x = None) /\
  (forall k p x, Component_CryptoProperties c = Some k -> CryptoProperties_CertificateProperties k = Some p ->
     In x (members (CertificateProperties_CertificateExtensions p)) -> CertificateExtension_Common x = None \/ CertificateExtension_Custom x = None) /\
  (forall x l, In x (members (Component_Licenses c)) -> LicenseChoice_License x = Some l -> License_ID l = "" \/ License_Name l = "").
Proof.
  intros esc b o r steps c E P. pose proof (component_written b r steps c P) as W. destruct (C24_json_partial esc b o E) as (_ & K1 & K2 & K3 & K4).
  split; [|split; [|split]].
  - intros e x He Hx. specialize (K1 x (written_trans _ _ _ _ _ _ W (written_trans _ _ _ _ _ _ (w_evidence c e He) (w_identity e x Hx)))).
    destruct (EvidenceIdentityChoice_Identity x); [|left; reflexivity]. destruct (EvidenceIdentityChoice_Identities x); [|right; reflexivity].
    exfalso. apply K1. split; discriminate.
  - intros k p x Hk Hp Hx. specialize (K2 x (written_trans _ _ _ _ _ _ W (written_trans _ _ _ _ _ _ (w_crypto c k Hk) (written_trans _ _ _ _ _ _ (w_certificate k p Hp) (w_state p x Hx))))).
    destruct (CertificateState_Predefined x); [|left; reflexivity]. destruct (CertificateState_Custom x); [|right; reflexivity].
    exfalso. apply K2. split; discriminate.
  - intros k p x Hk Hp Hx. specialize (K3 x (written_trans _ _ _ _ _ _ W (written_trans _ _ _ _ _ _ (w_crypto c k Hk) (written_trans _ _ _ _ _ _ (w_certificate k p Hp) (w_extension p x Hx))))).
    destruct (CertificateExtension_Common x); [|left; reflexivity]. destruct (CertificateExtension_Custom x); [|right; reflexivity].
    exfalso. apply K3. split; discriminate.
  - intros x l Hx Hl. specialize (K4 l (written_trans _ _ _ _ _ _ W (written_trans _ _ _ _ _ _ (w_licenses c x Hx) (w_license x l Hl)))).
    destruct (string_dec (License_ID l) ""), (string_dec (License_Name l) ""); auto. exfalso. destruct K4 as [(_ & K)|(K & _)]; contradiction.
Qed.

Example C24_nonvacuous : exists o, json_encode true ex_json = Ok o.
Proof. eexists. vm_compute. reflexivity. Qed.
Example C24_tools_fail : exists e, json_encode true ex_bom = Err (EMarshal e).
Proof. eexists. vm_compute. reflexivity. Qed.

(** What is not refused: the asserter of a patent assertion, an environment variable, a
    license choice, a dataset and a patent choice are written with both alternatives set. *)
Definition asserted (a : AsserterChoice) : BOM := with_component (set_Component_PatentAssertions (list_of [set_PatentAssertion_Asserter (Some a) zero_PatentAssertion]) zero_Component).
Definition env (e : EnvironmentVariableChoice) : BOM :=
  set_BOM_Formulation (list_of [set_Formula_Workflows (list_of [set_Workflow_Inputs (list_of [set_TaskInput_EnvironmentVars (Some (Some [e])) zero_TaskInput]) zero_Workflow]) zero_Formula]) NewBOM.
Definition licensed (l : LicenseChoice) : BOM := with_component (set_Component_Licenses (list_of [l]) zero_Component).
Definition an_org := set_OrganizationalEntity_Name "org" zero_OrganizationalEntity.
Definition a_person := set_OrganizationalContact_Name "me" zero_OrganizationalContact.
Definition a_property := set_Property_Name "n" zero_Property.
Theorem C24_json_refuted :
  (exists o, json_encode true (asserted (mkAsserterChoice (Some an_org) (Some a_person) None)) = Ok o) /\
  trip (asserted (mkAsserterChoice (Some an_org) (Some a_person) (Some "r"))) = trip (asserted (mkAsserterChoice (Some an_org) None None)) /\
  (exists o, json_encode true (env (mkEnvironmentVariableChoice (Some a_property) "PATH")) = Ok o) /\
  trip (env (mkEnvironmentVariableChoice (Some a_property) "PATH")) = trip (env (mkEnvironmentVariableChoice (Some a_property) "")) /\
  (exists o, json_encode true (licensed (set_LicenseChoice_Expression "MIT" ex_license)) = Ok o).
Proof.
  split; [eexists; vm_compute; reflexivity|]. split; [vm_compute; reflexivity|]. split; [eexists; vm_compute; reflexivity|].
  split; [vm_compute; reflexivity|]. eexists. vm_compute. reflexivity.
Qed.

(** ** C25: decoded choices *)
Theorem C25_json_partial : forall j c, doc_utf8 j -> doc_unique j -> bom_of_json j zero_BOM = Ok c ->
  (forall x, inside (TRef "BOM") (reify_BOM c) (TRef "ToolsChoice") (reify_ToolsChoice x) ->
     ToolsChoice_Tools x = None \/ (ToolsChoice_Components x = None /\ ToolsChoice_Services x = None)) /\
  (forall x, inside (TRef "BOM") (reify_BOM c) (TRef "EvidenceIdentityChoice") (reify_EvidenceIdentityChoice x) ->
     EvidenceIdentityChoice_Identity x = None \/ EvidenceIdentityChoice_Identities x = None) /\
  (forall x, inside (TRef "BOM") (reify_BOM c) (TRef "CertificateState") (reify_CertificateState x) ->
     CertificateState_Predefined x = None \/ CertificateState_Custom x = None) /\
  (forall x, inside (TRef "BOM") (reify_BOM c) (TRef "CertificateExtension") (reify_CertificateExtension x) ->
     CertificateExtension_Common x = None \/ CertificateExtension_Custom x = None) /\
  (forall x, inside (TRef "BOM") (reify_BOM c) (TRef "MLDatasetChoice") (reify_MLDatasetChoice x) ->
     MLDatasetChoice_Ref x = "" \/ MLDatasetChoice_ComponentData x = None) /\
  (forall x, inside (TRef "BOM") (reify_BOM c) (TRef "PatentChoice") (reify_PatentChoice x) ->
     PatentChoice_Patent x = None \/ PatentChoice_PatentFamily x = None) /\
  (forall x, inside (TRef "BOM") (reify_BOM c) (TRef "EnvironmentVariableChoice") (reify_EnvironmentVariableChoice x) ->
     EnvironmentVariableChoice_Property x = None \/ EnvironmentVariableChoice_Value x = "") /\
  (forall x, inside (TRef "BOM") (reify_BOM c) (TRef "AsserterChoice") (reify_AsserterChoice x) ->
     (AsserterChoice_Organization x = None \/ AsserterChoice_Individual x = None) /\
     (AsserterChoice_Organization x = None \/ AsserterChoice_BOMRef x = None) /\
     (AsserterChoice_Individual x = None \/ AsserterChoice_BOMRef x = None)).
Proof. exact decoded_choices. Qed.

(** With duplicate keys the alternatives add up. *)
Definition evidence_twice : json := doc_of [("components", JArr [JObj [str_member "type" "library"; str_member "name" "n";
  ("evidence", JObj [("identity", JArr [JObj [str_member "field" "purl"]]); ("identity", JObj [str_member "field" "name"])])]])].
Theorem C25_json_refuted : exists c k e i, bom_of_json evidence_twice zero_BOM = Ok c /\ first_component c = Some k /\
  Component_Evidence k = Some e /\ Evidence_Identity e = Some i /\ EvidenceIdentityChoice_Identity i <> None /\ EvidenceIdentityChoice_Identities i <> None.
Proof. do 4 eexists. repeat split; try (vm_compute; reflexivity); vm_compute; discriminate. Qed.

(** ** C15: versions *)
Theorem C15_encode : forall esc b, BOM_SpecVersion b < SpecVersion1_2 -> json_encode esc b = Err EUnsupportedVersion.
Proof. exact encode_old. Qed.
Theorem C15_encode_exactly : forall esc b, (exists o, bom_to_json esc b = Ok o) ->
  (exists e, json_encode esc b = Err e) <-> BOM_SpecVersion b < SpecVersion1_2.
Proof. exact encode_fails. Qed.
Theorem C15_encode_version : forall esc sv b, sv < SpecVersion1_2 -> json_encode_version esc sv b = Err EUnsupportedVersion.
Proof.
  intros esc sv b L. unfold json_encode_version. rewrite copyAndConvert_settle. apply encode_old. destruct (markers sv (settle b)) as (-> & _). exact L.
Qed.
(** EncodeVersion: the same, if the converted copy can be encoded at all. *)
Theorem C15_encode_version_exactly : forall esc sv b c, copy b = Ok c -> (exists o, bom_to_json esc (convert sv c) = Ok o) ->
  (exists e, json_encode_version esc sv b = Err e) <-> sv < SpecVersion1_2.
Proof.
  intros esc sv b c C E. rewrite (encode_version_eq _ _ _ _ C). rewrite (encode_fails esc (convert sv c) E). destruct (markers sv c) as (-> & _). reflexivity.
Qed.
(** It may not be: of a BOM with tools set to a list of no components the copy has neither
    tools nor components, which MarshalJSON turns into nothing at all. *)
Definition no_tools : BOM := set_BOM_Metadata (Some (set_Metadata_Tools (Some (mkToolsChoice None (list_of []) None)) zero_Metadata)) NewBOM.
Theorem C15_conversion_refuted : (exists o, json_encode true no_tools = Ok o) /\
  forall sv, In sv [v1_2; v1_3; v1_4; v1_5; v1_6] -> json_encode_version true sv no_tools = Err (EMarshal EEmptyOutput).
Proof.
  split; [eexists; vm_compute; reflexivity|]. intros sv [<-|[<-|[<-|[<-|[<-|[]]]]]]; vm_compute; reflexivity.
Qed.
(** It can, if every tools choice in the BOM has a tool (or encoding/json's limit is hit). *)
Theorem C15_json_all_versions : forall esc sv b o, json_encode esc b = Ok o ->
  (forall x, written (TRef "BOM") (reify_BOM b) (TRef "ToolsChoice") (reify_ToolsChoice x) -> all_tools x <> []) -> SpecVersion1_2 <= sv ->
  match json_encode_version esc sv b with
  | Ok _ => True
  | Err e => e = EMarshal ETooDeep /\ (max_depth < nesting (reify_BOM (convert sv (settle b))))%N
  end.
Proof.
  intros esc sv b o E T V. pose proof (versions_encode esc sv b o E T) as N. unfold json_encode_version. rewrite copyAndConvert_settle.
  destruct (json_encode esc (convert sv (settle b))) as [o'|e] eqn:F; [exact I|]. apply why_fails in F as [F|[(t & v & W & O)|F]]; [|destruct (N t v W O)|exact F].
  destruct (markers sv (settle b)) as (M & _). rewrite M in F. lia.
Qed.
Fixpoint has_tools (n : nat) (t : ty) (v : val) : bool :=
  match n with
  | O => false
  | S n => match t with TRef "ToolsChoice" => negb (Nat.eqb (length (all_tools (reflect_ToolsChoice v))) 0) | _ => true end && forallb (fun p => has_tools n (fst p) (snd p)) (parts_of t v)
  end%bool.
Lemma has_tools_ok : forall n t v, has_tools n t v = true -> forall x, written t v (TRef "ToolsChoice") (reify_ToolsChoice x) -> all_tools x <> [].
Proof.
  induction n as [|n IH]; intros t v H x W; [discriminate H|]. cbn [has_tools] in H. apply andb_prop in H as (H & P).
  remember (TRef "ToolsChoice") as u eqn:U. remember (reify_ToolsChoice x) as y eqn:Y. destruct W as [|t1 v1 t2 v2 I W]; subst.
  - rewrite ReifyFacts.inv_ToolsChoice in H. destruct (all_tools x); [discriminate H|discriminate].
  - rewrite forallb_forall in P. exact (IH t1 v1 (P (t1, v1) I) x W).
Qed.
Example C15_json_all_versions_nonvacuous : (exists o, json_encode true ex_json = Ok o) /\
  (forall x, written (TRef "BOM") (reify_BOM ex_json) (TRef "ToolsChoice") (reify_ToolsChoice x) -> all_tools x <> []) /\
  exists m x, BOM_Metadata ex_json = Some m /\ Metadata_Tools m = Some x /\ all_tools x <> [].
Proof.
  split; [eexists; vm_compute; reflexivity|]. split; [apply (has_tools_ok 40); vm_compute; reflexivity|].
  do 2 eexists. split; [vm_compute; reflexivity|]. split; [reflexivity|]. vm_compute. discriminate.
Qed.
Example C15_encode_nonvacuous : (exists o, bom_to_json true (set_BOM_SpecVersion v1_1 ex_json) = Ok o) /\ (exists o, json_encode_version true v1_2 ex_bom = Ok o).
Proof. split; eexists; vm_compute; reflexivity. Qed.

(** ** C18: the version member *)
Theorem C18_json_written : forall esc b o, json_encode esc b = Ok o ->
  exists ms, erase o = JObj ms /\ In ("specVersion", JStr (SpecVersion_String (BOM_SpecVersion b))) ms.
Proof.
  intros esc b o E. apply encode_writes in E as (E & _). apply written_version in E as (ms & -> & I). exists (map (fun m => (fst m, erase (snd m))) ms).
  split; [reflexivity|]. apply in_map_iff. eexists. split; [|exact I]. cbn [fst snd erase]. rewrite (Utf8Proofs.to_utf8_valid _ (JsonOut.version_utf8 _)). reflexivity.
Qed.
Theorem C18_json_read : forall ms x c, doc_utf8 (JObj ms) -> doc_unique (JObj ms) -> bom_of_json (JObj ms) zero_BOM = Ok c ->
  In ("specVersion", JStr x) ms -> parse_spec_version x = Some (BOM_SpecVersion c).
Proof. exact read_version. Qed.

(** ** C35: EncodeVersion, from end to end *)
Theorem C35_encode_version_partial : forall esc sv b o c, json_encode_version esc sv b = Ok o -> copy b = Ok c ->
  sane (TRef "BOM") (reify_BOM (convert sv c)) -> too_deep (erase o) = false ->
  (bom_of_json (erase o) zero_BOM = Ok (json_view (convert sv c)) <-> lossless (TRef "BOM") (reify_BOM (json_view (convert sv c)))).
Proof.
  intros esc sv b o c E C S D. rewrite (encode_version_eq _ _ _ _ C) in E. exact (bom_round esc _ o S E D).
Qed.
Theorem C35_encode_version : forall esc sv b o c d, json_encode_version esc sv b = Ok o -> copy b = Ok c ->
  sane (TRef "BOM") (reify_BOM (convert sv c)) -> bom_of_json (erase o) zero_BOM = Ok d ->
  (d = json_view (convert sv c) <-> lossless (TRef "BOM") (reify_BOM (json_view (convert sv c)))).
Proof.
  intros esc sv b o c d E C S D. rewrite (encode_version_eq _ _ _ _ C) in E. exact (proj2 (C16_decoded esc _ o d S E D)).
Qed.
Example C35_nonvacuous : exists o c, json_encode_version true v1_4 ex_json = Ok o /\ copy ex_json = Ok c /\ sane (TRef "BOM") (reify_BOM (convert v1_4 c)) /\
  too_deep (erase o) = false /\ bom_of_json (erase o) zero_BOM = Ok (json_view (convert v1_4 c)) /\ BOM_SpecVersion (convert v1_4 c) = v1_4.
Proof.
  eexists. eexists. split; [vm_compute; reflexivity|]. split; [vm_compute; reflexivity|]. split; [vm_compute; repeat split|]. repeat split; vm_compute; reflexivity.
Qed.

Definition json_theorems :=
  (C16_any_depth, C16_decoded, C16_decodes_partial, C16_round_trip_partial, C16_depth, C16_deep_refuted, C34_decoded_again, C34_deep_refuted, C16_losses_refuted, C34_decoded_again_partial, C34_encodes_refuted, C24_fails_exactly_partial, C24_fails_exactly, C24_json_partial, C24_metadata_tools,
   C24_components, C24_json_refuted, C25_json_partial, C25_json_refuted, C15_encode, C15_encode_exactly, C15_encode_version, C15_encode_version_exactly, C15_json_all_versions, C15_conversion_refuted, C18_json_written, C18_json_read,
   C35_encode_version, C35_encode_version_partial).
Print Assumptions json_theorems.
