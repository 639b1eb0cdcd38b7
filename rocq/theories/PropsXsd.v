(** Property theorems for C46: what is written as XML is known to the official schema. What
    that means is in XsdSpec.v; the schema is [xsd_1_7] in Xsd.v. *)
From Verif Require Import Base Types Univ TypeTable Wt Reify Consts LinkModel Version Numbers ConvertSpec GobModel JsonModel XmlModel XmlSpec XmlTop XmlText XmlIO XmlGrammar XsdSpec Xsd XmlShape PropsXml PropsXmlGrammar PropsSchema.
Local Open Scope string_scope.

(** The places where the package writes what the schema does not define, or defines in
    another way: elements that it does not have, elements for which it has text where the
    package writes an attribute ref, and attributes for which it has elements. *)
Definition more (n : string) (attrs : list string) (kids : list string) (d : xsd) : xsd :=
  map (fun m => if String.eqb (fst m) n then (n, mkType (attrs ++ t_attrs (snd m)) (map (fun k => (k, "*")) kids ++ t_kids (snd m)) (t_text (snd m))) else m) d.
Definition exceptions : list (string * list string * list string) :=
  [ ("component", [], ["isExternal"]);
    ("swidType", ["url"], []);
    ("componentEvidenceType/occurrences/occurrence", ["line"; "offset"; "symbol"; "additionalContext"], []);
    ("componentDataType", [], ["ref"]);
    ("componentDataType/contents", [], ["properties"]);
    ("organizationOrIndividualType", [], ["contact"]);
    ("cryptoPropertiesType/protocolProperties", [], ["cipherSuites"; "cryptoRefArray"; "relatedCryptographicAssets"]);
    ("cryptoPropertiesType/certificateProperties", [], ["signatureAlgorithmRef"; "subjectPublicKeyRef"]);
    ("cryptoPropertiesType/relatedCryptoMaterialProperties", [], ["algorithmRef"]);
    ("cryptoPropertiesType/relatedCryptoMaterialProperties/securedBy", [], ["algorithmRef"]);
    ("outputType", [], ["parameters"]);
    ("declarationsType/attestations/attestation", [], ["assessor"]);
    ("declarationsType/attestations/attestation/map/claims", [], ["claim"]);
    ("declarationsType/attestations/attestation/map/counterClaims", [], ["counterClaim"]);
    ("declarationsType/attestations/attestation/map/conformance/mitigationStrategies", [], ["mitigationStrategy"]);
    ("declarationsType/claims/claim", [], ["target"; "evidence"; "counterEvidence"]);
    ("declarationsType/claims/claim/mitigationStrategies", [], ["mitigationStrategy"]);
    ("declarationsType/evidence/evidence/data", [], ["data"]);
    ("patentFamilyType/members", [], ["ref"]);
    ("patentAssertionType/asserter", [], ["ref"]);
    ("patentAssertionType/patentRefs", [], ["bom-ref"]);
    ("citationType", [], ["attributedTo"]) ].
Definition stretched (l : list (string * list string * list string)) : xsd := fold_right (fun e d => match e with (n, attrs, kids) => more n attrs kids d end) xsd_1_7 l.
Lemma stretched_covers : covers (stretched exceptions) = true.
Proof. vm_compute. reflexivity. Qed.

(** Whatever the BOM is: apart from the exceptions, every element and attribute that is written
    is one that the schema defines at that place, and there is text only where the schema has
    text. Missing from the full property: the exceptions. *)
Theorem C46_xml_known_partial : forall b els, bom_to_xml b = Ok els -> exists attrs kids, els = [XElem "" "bom" attrs kids] /\ known (stretched exceptions) "bom" attrs kids.
Proof. intros b els E. exact (covers_known _ b els stretched_covers E). Qed.
(** The texts: they hold such a document, up to indentation. *)
Theorem C46_xml_texts_partial : forall pretty b s, xml_encode_text pretty b = Ok s ->
  exists attrs kids, xdocument s (xml_seen pretty (XElem "" "bom" attrs kids)) /\ known (stretched exceptions) "bom" attrs kids.
Proof.
  intros pretty b s E. destruct (C41_xml_written pretty b s E) as (e & B & D). destruct (C46_xml_known_partial b _ B) as (a & ks & Q & K). exists a, ks. injection Q as ->. split; assumption.
Qed.

(** ** The exceptions are real
    For every one of them there is a BOM (here one that is decoded from JSON) whose XML
    document is not known to the schema, even with all other exceptions. *)
Definition spare (n k : string) : list (string * list string * list string) :=
  map (fun e => match e with (m, attrs, kids) => if String.eqb m n then (m, filter (fun x => negb (String.eqb x k)) attrs, filter (fun x => negb (String.eqb x k)) kids) else e end) exceptions.
Definition doc (ms : list (string * json)) : json := JObj (("specVersion", JStr "1.7") :: ms).
Definition comp (k : string) (j : json) : json := doc [("components", JArr [JObj [("type", JStr "library"); ("name", JStr "n"); (k, j)]])].
Definition one (k : string) (j : json) : json := JObj [(k, j)].
Definition some (k : string) (j : json) : json := JObj [(k, JArr [j])].
Definition witnesses : list (string * string * json) :=
  let named := one "name" (JStr "n") in let r := JStr "r" in
  let occurrence k j := comp "evidence" (some "occurrences" (one k j)) in
  let crypto k j := comp "cryptoProperties" (one k j) in
  let declared k j := doc [("declarations", some k j)] in
  [ ("component", "isExternal", comp "isExternal" (JBool true));
    ("swidType", "url", comp "swid" (JObj [("tagId", JStr "t"); ("name", JStr "n"); ("url", JStr "u")]));
    ("componentEvidenceType/occurrences/occurrence", "line", occurrence "line" (JNum "1"));
    ("componentEvidenceType/occurrences/occurrence", "offset", occurrence "offset" (JNum "1"));
    ("componentEvidenceType/occurrences/occurrence", "symbol", occurrence "symbol" (JStr "s"));
    ("componentEvidenceType/occurrences/occurrence", "additionalContext", occurrence "additionalContext" (JStr "s"));
    ("componentDataType", "ref", comp "modelCard" (one "modelParameters" (some "datasets" (one "ref" r))));
    ("componentDataType/contents", "properties", comp "data" (JArr [one "contents" (some "properties" named)]));
    ("organizationOrIndividualType", "contact", comp "data" (JArr [one "governance" (some "owners" (one "contact" named))]));
    ("cryptoPropertiesType/protocolProperties", "cipherSuites", crypto "protocolProperties" (some "cipherSuites" named));
    ("cryptoPropertiesType/protocolProperties", "cryptoRefArray", crypto "protocolProperties" (some "cryptoRefArray" r));
    ("cryptoPropertiesType/protocolProperties", "relatedCryptographicAssets", crypto "protocolProperties" (some "relatedCryptographicAssets" (one "ref" r)));
    ("cryptoPropertiesType/certificateProperties", "signatureAlgorithmRef", crypto "certificateProperties" (one "signatureAlgorithmRef" r));
    ("cryptoPropertiesType/certificateProperties", "subjectPublicKeyRef", crypto "certificateProperties" (one "subjectPublicKeyRef" r));
    ("cryptoPropertiesType/relatedCryptoMaterialProperties", "algorithmRef", crypto "relatedCryptoMaterialProperties" (one "algorithmRef" r));
    ("cryptoPropertiesType/relatedCryptoMaterialProperties/securedBy", "algorithmRef", crypto "relatedCryptoMaterialProperties" (one "securedBy" (one "algorithmRef" r)));
    ("outputType", "parameters", doc [("formulation", JArr [some "workflows" (some "outputs" (some "parameters" named))])]);
    ("declarationsType/attestations/attestation", "assessor", declared "attestations" (one "assessor" r));
    ("declarationsType/attestations/attestation/map/claims", "claim", declared "attestations" (some "map" (some "claims" r)));
    ("declarationsType/attestations/attestation/map/counterClaims", "counterClaim", declared "attestations" (some "map" (some "counterClaims" r)));
    ("declarationsType/attestations/attestation/map/conformance/mitigationStrategies", "mitigationStrategy", declared "attestations" (some "map" (one "conformance" (some "mitigationStrategies" r))));
    ("declarationsType/claims/claim", "target", declared "claims" (one "target" r));
    ("declarationsType/claims/claim", "evidence", declared "claims" (some "evidence" r));
    ("declarationsType/claims/claim", "counterEvidence", declared "claims" (some "counterEvidence" r));
    ("declarationsType/claims/claim/mitigationStrategies", "mitigationStrategy", declared "claims" (some "mitigationStrategies" r));
    ("declarationsType/evidence/evidence/data", "data", declared "evidence" (some "data" (one "classification" (one "flow" (JStr "inbound")))));
    ("patentFamilyType/members", "ref", doc [("definitions", some "patents" (JObj [("familyId", JStr "f"); ("members", JArr [r])]))]);
    ("patentAssertionType/asserter", "ref", comp "patentAssertions" (JArr [one "asserter" (one "ref" r)]));
    ("patentAssertionType/patentRefs", "bom-ref", comp "patentAssertions" (JArr [some "patentRefs" r]));
    ("citationType", "attributedTo", doc [("citations", JArr [one "attributedTo" r])]) ].
Definition shows (n k : string) (j : json) : bool :=
  match bom_of_json j zero_BOM with
  | Ok b => match bom_to_xml b with
            | Ok [XElem sp nm a ks] => String.eqb sp "" && String.eqb nm "bom" && negb (may_be (stretched (spare n k)) 20 "bom" a ks)
            | _ => false
            end
  | Err _ => false
  end.
Definition real (n k : string) (j : json) : Prop :=
  exists b attrs kids, bom_of_json j zero_BOM = Ok b /\ bom_to_xml b = Ok [XElem "" "bom" attrs kids] /\ ~ known (stretched (spare n k)) "bom" attrs kids.
Lemma shows_real n k j : shows n k j = true -> real n k j.
Proof.
  unfold shows, real. destruct (bom_of_json j zero_BOM) as [b|] eqn:B; [|discriminate]. destruct (bom_to_xml b) as [els|] eqn:X; [|discriminate].
  destruct els as [|x [|]]; try (destruct x; discriminate); try discriminate. destruct x as [|sp nm a ks]; try discriminate.
  intros C. apply andb_true_iff in C. destruct C as [C N]. apply andb_true_iff in C. destruct C as [C1 C2]. apply String.eqb_eq in C1, C2. subst. apply negb_true_iff in N.
  exists b, a, ks. split; [reflexivity|]. split; [exact X|]. exact (not_known _ _ _ _ _ N).
Qed.
Lemma all_shown : forallb (fun w => match w with (n, k, j) => shows n k j end) witnesses = true.
Proof. vm_compute. reflexivity. Qed.
Definition witnessed (n k : string) : bool := existsb (fun w => match w with (m, l, _) => String.eqb m n && String.eqb l k end) witnesses.
Lemma all_witnessed : forallb (fun e => match e with (n, attrs, kids) => forallb (witnessed n) (attrs ++ kids) end) exceptions = true.
Proof. vm_compute. reflexivity. Qed.
Theorem C46_xml_exceptions_refuted : forall n attrs kids k, In (n, attrs, kids) exceptions -> In k attrs \/ In k kids -> exists j, real n k j.
Proof.
  intros n attrs kids k I K. pose proof (proj1 (forallb_forall _ _) all_witnessed _ I) as W. cbv beta iota in W. rewrite forallb_forall in W. specialize (W k (proj2 (in_app_iff _ _ _) K)).
  apply existsb_exists in W. destruct W as ([[m l] j] & J & Q). apply andb_true_iff in Q. destruct Q as [Q1 Q2]. apply String.eqb_eq in Q1, Q2. subst.
  exists j. apply shows_real. exact (proj1 (forallb_forall _ _) all_shown _ J).
Qed.
(** The hypothesis is met, and [known] is not everything: a document with an element that the
    schema does not have, or with text where it has none, is not known. *)
Example C46_xml_nonvacuous : exists attrs kids, bom_to_xml ex_xml = Ok [XElem "" "bom" attrs kids] /\ Nat.ltb 2 (length kids) = true /\
  known (stretched exceptions) "bom" attrs kids /\ may_be xsd_1_7 100 "bom" attrs kids = true /\
  ~ known (stretched exceptions) "bom" attrs (kids ++ [XElem "" "sbom" [] []]) /\ ~ known (stretched exceptions) "bom" attrs (kids ++ [XText "text"]) /\
  ~ known (stretched exceptions) "bom" (attrs ++ [("specVersion", "1.7")]) kids.
Proof.
  destruct (bom_to_xml ex_xml) as [els|] eqn:E; [|vm_compute in E; discriminate]. destruct (C46_xml_known_partial _ _ E) as (a & ks & -> & K). exists a, ks.
  split; [reflexivity|]. vm_compute in E. injection E as <- <-. split; [vm_compute; reflexivity|]. split; [exact K|]. split; [vm_compute; reflexivity|].
  split; [apply (not_known _ 20); vm_compute; reflexivity|]. split; apply (not_known _ 20); vm_compute; reflexivity.
Qed.

Definition xsd_theorems := (C46_xml_known_partial, C46_xml_texts_partial, C46_xml_exceptions_refuted).
Print Assumptions xsd_theorems.
