(** Property theorems for C47 and C48: what is written as XML is in the order and number of the
    official schema.
    What that means is in OrderSpec.v; the order is [order_1_7] in XsdOrder.v, the types are
    [xsd_1_7] in Xsd.v. *)
From Verif Require Import Base Types Univ TypeTable Wt Reify Consts LinkModel Version Numbers ConvertSpec GobModel JsonModel XmlModel XmlSpec XmlTop XmlText XmlIO XmlGrammar XsdSpec Xsd XmlShape OrderSpec XsdOrder XmlOrder PropsXml PropsXmlGrammar PropsSchema PropsXsd.
Local Open Scope string_scope.

(** The elements that the package writes at another place than the schema asks for, with the
    types of the elements around them. Without their ranks, the order is that of the others. *)
Definition misplaced : list (string * list string) :=
  [ ("metadata", ["manufacture"]);
    ("component", ["author"; "patentAssertions"; "versionRange"]);
    ("service", ["patentAssertions"; "trustZone"]);
    ("patentAssertionType", ["patentRefs"]);
    ("cryptoPropertiesType/algorithmProperties", ["algorithmFamily"]);
    ("cryptoPropertiesType/certificateProperties", ["certificateExtensions"; "relatedCryptographicAssets"]);
    ("taskType", ["properties"]) ].
Definition without (l : list (string * list string)) (o : orders) : orders :=
  map (fun m => (fst m, filter (fun r => negb (match assoc (fst m) l with Some ks => existsb (String.eqb (fst r)) ks | None => false end)) (snd m))) o.
Lemma rest_orderly : related xsd_1_7 (in_order (without misplaced order_1_7)) = true.
Proof. vm_compute. reflexivity. Qed.

(** Whatever the BOM is: apart from the elements that are listed, elements are written in the
    order of the schema. Missing from the full property: those elements. *)
Theorem C47_xml_order_partial : forall b els, bom_to_xml b = Ok els -> exists attrs kids, els = [XElem "" "bom" attrs kids] /\ arranged xsd_1_7 (without misplaced order_1_7) "bom" kids.
Proof. intros b els E. exact (orderly_arranged _ _ b els rest_orderly E). Qed.
(** The texts: they hold such a document, up to indentation. *)
Theorem C47_xml_texts_partial : forall pretty b s, xml_encode_text pretty b = Ok s ->
  exists attrs kids, xdocument s (xml_seen pretty (XElem "" "bom" attrs kids)) /\ arranged xsd_1_7 (without misplaced order_1_7) "bom" kids.
Proof.
  intros pretty b s E. destruct (C41_xml_written pretty b s E) as (e & B & D). destruct (C47_xml_order_partial b _ B) as (a & ks & Q & K). exists a, ks. injection Q as ->. split; assumption.
Qed.

(** ** The listed elements are misplaced
    For every one of them there is a BOM (here one that is decoded from JSON) whose XML
    document is not in order, even if the places of all others that are listed do not matter. *)
Definition others (n k : string) : list (string * list string) :=
  map (fun e => if String.eqb (fst e) n then (n, filter (fun x => negb (String.eqb x k)) (snd e)) else e) misplaced.
Definition component_with (ms : list (string * json)) : json := doc [("components", JArr [JObj ([("type", JStr "library"); ("name", JStr "n")] ++ ms)])].
Definition service_with (ms : list (string * json)) : json := doc [("services", JArr [JObj (("name", JStr "n") :: ms)])].
Definition order_witnesses : list (string * string * json) :=
  let named := one "name" (JStr "n") in let s := JStr "s" in
  let crypto k ms := comp "cryptoProperties" (one k (JObj ms)) in
  [ ("metadata", "manufacture", doc [("metadata", JObj [("manufacture", named); ("manufacturer", named)])]);
    ("component", "author", component_with [("authors", JArr [named]); ("author", s)]);
    ("component", "patentAssertions", component_with [("patentAssertions", JArr [one "notes" s]); ("cpe", s)]);
    ("component", "versionRange", component_with [("versionRange", s); ("description", s)]);
    ("service", "patentAssertions", service_with [("patentAssertions", JArr [one "notes" s]); ("tags", JArr [s])]);
    ("service", "trustZone", service_with [("trustZone", s); ("tags", JArr [s])]);
    ("patentAssertionType", "patentRefs", comp "patentAssertions" (JArr [JObj [("assertionType", s); ("patentRefs", JArr [s])]]));
    ("cryptoPropertiesType/algorithmProperties", "algorithmFamily", crypto "algorithmProperties" [("algorithmFamily", s); ("parameterSetIdentifier", s)]);
    ("cryptoPropertiesType/certificateProperties", "certificateExtensions", crypto "certificateProperties" [("creationDate", s); ("certificateExtensions", JArr [JObj [("commonExtensionName", s); ("commonExtensionValue", s)]])]);
    ("cryptoPropertiesType/certificateProperties", "relatedCryptographicAssets", crypto "certificateProperties" [("creationDate", s); ("relatedCryptographicAssets", JArr [one "ref" s])]);
    ("taskType", "properties", doc [("formulation", JArr [some "workflows" (some "tasks" (JObj [("taskTypes", JArr [s]); ("properties", JArr [named])]))])]) ].
Definition disordered (n k : string) (j : json) : Prop :=
  exists b attrs kids, bom_of_json j zero_BOM = Ok b /\ bom_to_xml b = Ok [XElem "" "bom" attrs kids] /\ ~ arranged xsd_1_7 (without (others n k) order_1_7) "bom" kids.
Definition disorders (n k : string) (j : json) : bool :=
  match bom_of_json j zero_BOM with
  | Ok b => match bom_to_xml b with
            | Ok [XElem sp nm a ks] => String.eqb sp "" && String.eqb nm "bom" && negb (may_be_paired xsd_1_7 (in_order (without (others n k) order_1_7)) 20 "bom" ks)
            | _ => false
            end
  | Err _ => false
  end.
Lemma disorders_disordered n k j : disorders n k j = true -> disordered n k j.
Proof.
  unfold disorders, disordered. destruct (bom_of_json j zero_BOM) as [b|] eqn:B; [|discriminate]. destruct (bom_to_xml b) as [els|] eqn:X; [|discriminate].
  destruct els as [|x [|]]; try (destruct x; discriminate); try discriminate. destruct x as [|sp nm a ks]; try discriminate.
  intros C. apply andb_true_iff in C. destruct C as [C N]. apply andb_true_iff in C. destruct C as [C1 C2]. apply String.eqb_eq in C1, C2. subst. apply negb_true_iff in N.
  exists b, a, ks. split; [reflexivity|]. split; [exact X|]. exact (not_arranged _ _ _ _ _ N).
Qed.
Lemma all_disorder : forallb (fun w => match w with (n, k, j) => disorders n k j end) order_witnesses = true.
Proof. vm_compute. reflexivity. Qed.
Lemma all_misplaced : forallb (fun e => forallb (fun k => existsb (fun w => match w with (m, l, _) => String.eqb m (fst e) && String.eqb l k end) order_witnesses) (snd e)) misplaced = true.
Proof. vm_compute. reflexivity. Qed.
Theorem C47_xml_misplaced_refuted : forall n ks k, In (n, ks) misplaced -> In k ks -> exists j, disordered n k j.
Proof.
  intros n ks k I K. pose proof (proj1 (forallb_forall _ _) all_misplaced _ I) as W. cbv beta iota in W. rewrite forallb_forall in W. specialize (W k K).
  apply existsb_exists in W. destruct W as ([[m l] j] & J & Q). apply andb_true_iff in Q. destruct Q as [Q1 Q2]. apply String.eqb_eq in Q1, Q2. cbn [fst] in Q1. subst.
  exists j. apply disorders_disordered. exact (proj1 (forallb_forall _ _) all_disorder _ J).
Qed.

(** The hypothesis is met by a BOM with three kinds of elements at the top and a component with
    hashes, licenses, components, evidence and patent assertions. With the elements at the top
    the other way round it is not in order. *)
Example C47_xml_nonvacuous : exists attrs kids, bom_to_xml ex_xml = Ok [XElem "" "bom" attrs kids] /\ Nat.ltb 2 (length kids) = true /\
  arranged xsd_1_7 (without misplaced order_1_7) "bom" kids /\
  ~ arranged xsd_1_7 (without misplaced order_1_7) "bom" (rev kids).
Proof.
  destruct (bom_to_xml ex_xml) as [els|] eqn:E; [|vm_compute in E; discriminate]. destruct (C47_xml_order_partial _ _ E) as (a & ks & -> & K). exists a, ks.
  split; [reflexivity|]. vm_compute in E. injection E as <- <-. split; [vm_compute; reflexivity|]. split; [exact K|].
  apply (not_arranged _ _ 20); vm_compute; reflexivity.
Qed.

(** * C48: no element is written more often than the official schema allows
    The elements that the package writes once for every item of a list, but of which the schema
    has at most one *)
Definition repeated : list (string * list string) :=
  [ ("cryptoPropertiesType/protocolProperties", ["cipherSuites"]);
    ("componentDataType/contents", ["properties"]);
    ("modelCardType/considerations/users", ["user"]);
    ("modelCardType/considerations/useCases", ["useCase"]);
    ("modelCardType/considerations/technicalLimitations", ["technicalLimitation"]);
    ("modelCardType/considerations/performanceTradeoffs", ["performanceTradeoff"]) ].
Definition unlimited (l : list (string * list string)) (o : limits) : limits :=
  map (fun m => (fst m, filter (fun k => negb (match assoc (fst m) l with Some ks => existsb (String.eqb k) ks | None => false end)) (snd m))) o.
Lemma rest_limited : related xsd_1_7 (by_limits (unlimited repeated limits_1_7)) = true.
Proof. vm_compute. reflexivity. Qed.
(** Whatever the BOM is: apart from the elements that are listed, there is never more than one
    element where the schema allows one. Missing from the full property: those elements. *)
Theorem C48_xml_limits_partial : forall b els, bom_to_xml b = Ok els -> exists attrs kids, els = [XElem "" "bom" attrs kids] /\ sparing xsd_1_7 (unlimited repeated limits_1_7) "bom" kids.
Proof. intros b els E. exact (limited_sparing _ _ b els rest_limited E). Qed.
Theorem C48_xml_texts_partial : forall pretty b s, xml_encode_text pretty b = Ok s ->
  exists attrs kids, xdocument s (xml_seen pretty (XElem "" "bom" attrs kids)) /\ sparing xsd_1_7 (unlimited repeated limits_1_7) "bom" kids.
Proof.
  intros pretty b s E. destruct (C41_xml_written pretty b s E) as (e & B & D). destruct (C48_xml_limits_partial b _ B) as (a & ks & Q & K). exists a, ks. injection Q as ->. split; assumption.
Qed.
(** For each of the listed elements there is a BOM whose XML document has two where the schema
    allows one, even if all others that are listed are not limited. *)
Definition limits_without (n k : string) : limits :=
  unlimited (map (fun e => if String.eqb (fst e) n then (n, filter (fun x => negb (String.eqb x k)) (snd e)) else e) repeated) limits_1_7.
Definition limit_witnesses : list (string * string * json) :=
  let named := one "name" (JStr "n") in let two := JArr [JStr "a"; JStr "b"] in
  let considered k := comp "modelCard" (one "considerations" (one k two)) in
  [ ("cryptoPropertiesType/protocolProperties", "cipherSuites", comp "cryptoProperties" (one "protocolProperties" (one "cipherSuites" (JArr [named; named]))));
    ("componentDataType/contents", "properties", comp "data" (JArr [one "contents" (one "properties" (JArr [named; named]))]));
    ("modelCardType/considerations/users", "user", considered "users");
    ("modelCardType/considerations/useCases", "useCase", considered "useCases");
    ("modelCardType/considerations/technicalLimitations", "technicalLimitation", considered "technicalLimitations");
    ("modelCardType/considerations/performanceTradeoffs", "performanceTradeoff", considered "performanceTradeoffs") ].
Definition exceeded (n k : string) (j : json) : Prop :=
  exists b attrs kids, bom_of_json j zero_BOM = Ok b /\ bom_to_xml b = Ok [XElem "" "bom" attrs kids] /\ ~ sparing xsd_1_7 (limits_without n k) "bom" kids.
Definition exceeds (n k : string) (j : json) : bool :=
  match bom_of_json j zero_BOM with
  | Ok b => match bom_to_xml b with
            | Ok [XElem sp nm a ks] => String.eqb sp "" && String.eqb nm "bom" && negb (may_be_paired xsd_1_7 (by_limits (limits_without n k)) 20 "bom" ks)
            | _ => false
            end
  | Err _ => false
  end.
Lemma exceeds_exceeded n k j : exceeds n k j = true -> exceeded n k j.
Proof.
  unfold exceeds, exceeded. destruct (bom_of_json j zero_BOM) as [b|] eqn:B; [|discriminate]. destruct (bom_to_xml b) as [els|] eqn:X; [|discriminate].
  destruct els as [|x [|]]; try (destruct x; discriminate); try discriminate. destruct x as [|sp nm a ks]; try discriminate.
  intros C. apply andb_true_iff in C. destruct C as [C N]. apply andb_true_iff in C. destruct C as [C1 C2]. apply String.eqb_eq in C1, C2. subst. apply negb_true_iff in N.
  exists b, a, ks. split; [reflexivity|]. split; [exact X|]. exact (not_sparing _ _ _ _ _ N).
Qed.
Lemma all_exceed : forallb (fun w => match w with (n, k, j) => exceeds n k j end) limit_witnesses = true.
Proof. vm_compute. reflexivity. Qed.
Lemma all_repeated : forallb (fun e => forallb (fun k => existsb (fun w => match w with (m, l, _) => String.eqb m (fst e) && String.eqb l k end) limit_witnesses) (snd e)) repeated = true.
Proof. vm_compute. reflexivity. Qed.
Theorem C48_xml_repeated_refuted : forall n ks k, In (n, ks) repeated -> In k ks -> exists j, exceeded n k j.
Proof.
  intros n ks k I K. pose proof (proj1 (forallb_forall _ _) all_repeated _ I) as W. cbv beta iota in W. rewrite forallb_forall in W. specialize (W k K).
  apply existsb_exists in W. destruct W as ([[m l] j] & J & Q). apply andb_true_iff in Q. destruct Q as [Q1 Q2]. apply String.eqb_eq in Q1, Q2. cbn [fst] in Q1. subst.
  exists j. apply exceeds_exceeded. exact (proj1 (forallb_forall _ _) all_exceed _ J).
Qed.
(** The hypothesis is met by the same BOM as above, which keeps the limits of the schema without
    exceptions; with every element twice it does not. *)
Example C48_xml_nonvacuous : exists attrs kids, bom_to_xml ex_xml = Ok [XElem "" "bom" attrs kids] /\ Nat.ltb 2 (length kids) = true /\
  sparing xsd_1_7 (unlimited repeated limits_1_7) "bom" kids /\ may_be_paired xsd_1_7 (by_limits limits_1_7) 100 "bom" kids = true /\
  ~ sparing xsd_1_7 (unlimited repeated limits_1_7) "bom" (kids ++ kids).
Proof.
  destruct (bom_to_xml ex_xml) as [els|] eqn:E; [|vm_compute in E; discriminate]. destruct (C48_xml_limits_partial _ _ E) as (a & ks & -> & K). exists a, ks.
  split; [reflexivity|]. vm_compute in E. injection E as <- <-. split; [vm_compute; reflexivity|]. split; [exact K|]. split; [vm_compute; reflexivity|].
  apply (not_sparing _ _ 20); vm_compute; reflexivity.
Qed.

Definition order_theorems := (C47_xml_order_partial, C47_xml_texts_partial, C47_xml_misplaced_refuted, C48_xml_limits_partial, C48_xml_texts_partial, C48_xml_repeated_refuted).
Print Assumptions order_theorems.
