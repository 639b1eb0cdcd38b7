(** Property theorems for C39, decoding into a BOM that already holds data, and C34 with
    repeated keys. [bom_of_json j b]
    and [bom_of_xml entries x b] model decoding the document into the BOM [b]. *)
From Verif Require Import Base Types Univ TypeTable Wt ReifyBase Reify ReifyFacts Consts Version VersionProofs ConvertModel ConvertSpec JsonModel JsonBack JsonBack JsonProofs JsonSpec JsonDecode JsonBom JsonAgain JsonTyped JsonText JsonIO SameOutcome XmlModel XmlTable XmlNs XmlText XmlIO Reuse SameXml.
From Coq Require Import Lia Permutation.
Local Open Scope string_scope.

(** ** JSON *)

(** The document has a member of that name. Package json ignores case when it compares
    names ([fold_name]). *)
Definition mentions (j : json) (name : string) : Prop := match j with JObj ms => exists k m, In (k, m) ms /\ fold_name k = fold_name name | _ => False end.

(** What the document does not mention stays as it is. *)
Theorem C39_json_untouched : forall j b c, bom_of_json j b = Ok c ->
  BOM_XMLName c = BOM_XMLName b /\ BOM_XMLNS c = BOM_XMLNS b /\
  (~ mentions j "$schema" -> BOM_JSONSchema c = BOM_JSONSchema b) /\
  (~ mentions j "bomFormat" -> BOM_BOMFormat c = BOM_BOMFormat b) /\
  (~ mentions j "specVersion" -> BOM_SpecVersion c = BOM_SpecVersion b) /\
  (~ mentions j "serialNumber" -> BOM_SerialNumber c = BOM_SerialNumber b) /\
  (~ mentions j "version" -> BOM_Version c = BOM_Version b) /\
  (~ mentions j "metadata" -> BOM_Metadata c = BOM_Metadata b) /\
  (~ mentions j "components" -> BOM_Components c = BOM_Components b) /\
  (~ mentions j "services" -> BOM_Services c = BOM_Services b) /\
  (~ mentions j "externalReferences" -> BOM_ExternalReferences c = BOM_ExternalReferences b) /\
  (~ mentions j "dependencies" -> BOM_Dependencies c = BOM_Dependencies b) /\
  (~ mentions j "compositions" -> BOM_Compositions c = BOM_Compositions b) /\
  (~ mentions j "properties" -> BOM_Properties c = BOM_Properties b) /\
  (~ mentions j "vulnerabilities" -> BOM_Vulnerabilities c = BOM_Vulnerabilities b) /\
  (~ mentions j "annotations" -> BOM_Annotations c = BOM_Annotations b) /\
  (~ mentions j "formulation" -> BOM_Formulation c = BOM_Formulation b) /\
  (~ mentions j "declarations" -> BOM_Declarations c = BOM_Declarations b) /\
  (~ mentions j "definitions" -> BOM_Definitions c = BOM_Definitions b) /\
  (~ mentions j "citations" -> BOM_Citations c = BOM_Citations b) /\
  (~ mentions j "signature" -> BOM_Signature c = BOM_Signature b).
Proof.
  intros j b c H. apply json_keep in H as (vs & -> & L & K). pose proof (agree vs (bom_values b) L eq_refl) as G. cbv zeta in G.
  change (VStruct (bom_values b)) with (reify_BOM b) in G. rewrite (inv_BOM b) in G.
  assert (M : forall i f n om, nth_error fields_BOM i = Some f -> json_info f = Some (n, om) -> ~ mentions j n -> nth_error vs i = nth_error (bom_values b) i).
  { intros i f n om Fi J N. apply (K i f Fi). intros k I (n' & om' & J' & Q). apply N. assert (n' = n) by congruence. subst n'.
    destruct j as [| | | | |ms]; try contradiction I. cbn [members_of] in I. apply in_map_iff in I as ((k' & m) & E & I). cbn [fst] in E. subst k'. exists k, m. auto. }
  assert (U : forall i f, nth_error fields_BOM i = Some f -> json_info f = None -> nth_error vs i = nth_error (bom_values b) i).
  { intros i f Fi J. apply (K i f Fi). intros k _ (n' & om' & J' & _). congruence. }
  destruct G as (G0 & G1 & G2 & G3 & G4 & G5 & G6 & G7 & G8 & G9 & G10 & G11 & G12 & G13 & G14 & G15 & G16 & G17 & G18 & G19 & G20).
  split; [exact (G0 (U 0%nat _ eq_refl eq_refl))|]. split; [exact (G1 (U 1%nat _ eq_refl eq_refl))|].
  split; [intros N; exact (G2 (M 2%nat _ _ _ eq_refl eq_refl N))|].
  split; [intros N; exact (G3 (M 3%nat _ _ _ eq_refl eq_refl N))|].
  split; [intros N; exact (G4 (M 4%nat _ _ _ eq_refl eq_refl N))|].
  split; [intros N; exact (G5 (M 5%nat _ _ _ eq_refl eq_refl N))|].
  split; [intros N; exact (G6 (M 6%nat _ _ _ eq_refl eq_refl N))|].
  split; [intros N; exact (G7 (M 7%nat _ _ _ eq_refl eq_refl N))|].
  split; [intros N; exact (G8 (M 8%nat _ _ _ eq_refl eq_refl N))|].
  split; [intros N; exact (G9 (M 9%nat _ _ _ eq_refl eq_refl N))|].
  split; [intros N; exact (G10 (M 10%nat _ _ _ eq_refl eq_refl N))|].
  split; [intros N; exact (G11 (M 11%nat _ _ _ eq_refl eq_refl N))|].
  split; [intros N; exact (G12 (M 12%nat _ _ _ eq_refl eq_refl N))|].
  split; [intros N; exact (G13 (M 13%nat _ _ _ eq_refl eq_refl N))|].
  split; [intros N; exact (G14 (M 14%nat _ _ _ eq_refl eq_refl N))|].
  split; [intros N; exact (G15 (M 15%nat _ _ _ eq_refl eq_refl N))|].
  split; [intros N; exact (G16 (M 16%nat _ _ _ eq_refl eq_refl N))|].
  split; [intros N; exact (G17 (M 17%nat _ _ _ eq_refl eq_refl N))|].
  split; [intros N; exact (G18 (M 18%nat _ _ _ eq_refl eq_refl N))|].
  split; [intros N; exact (G19 (M 19%nat _ _ _ eq_refl eq_refl N))|].
  intros N. exact (G20 (M 20%nat _ _ _ eq_refl eq_refl N)).
Qed.

(** A field of the result depends on the document and on that field only. *)
Theorem C39_json_fields : forall j b1 b2 c1 c2, bom_of_json j b1 = Ok c1 -> bom_of_json j b2 = Ok c2 ->
  (BOM_XMLName b1 = BOM_XMLName b2 -> BOM_XMLName c1 = BOM_XMLName c2) /\
  (BOM_XMLNS b1 = BOM_XMLNS b2 -> BOM_XMLNS c1 = BOM_XMLNS c2) /\
  (BOM_JSONSchema b1 = BOM_JSONSchema b2 -> BOM_JSONSchema c1 = BOM_JSONSchema c2) /\
  (BOM_BOMFormat b1 = BOM_BOMFormat b2 -> BOM_BOMFormat c1 = BOM_BOMFormat c2) /\
  (BOM_SpecVersion b1 = BOM_SpecVersion b2 -> BOM_SpecVersion c1 = BOM_SpecVersion c2) /\
  (BOM_SerialNumber b1 = BOM_SerialNumber b2 -> BOM_SerialNumber c1 = BOM_SerialNumber c2) /\
  (BOM_Version b1 = BOM_Version b2 -> BOM_Version c1 = BOM_Version c2) /\
  (BOM_Metadata b1 = BOM_Metadata b2 -> BOM_Metadata c1 = BOM_Metadata c2) /\
  (BOM_Components b1 = BOM_Components b2 -> BOM_Components c1 = BOM_Components c2) /\
  (BOM_Services b1 = BOM_Services b2 -> BOM_Services c1 = BOM_Services c2) /\
  (BOM_ExternalReferences b1 = BOM_ExternalReferences b2 -> BOM_ExternalReferences c1 = BOM_ExternalReferences c2) /\
  (BOM_Dependencies b1 = BOM_Dependencies b2 -> BOM_Dependencies c1 = BOM_Dependencies c2) /\
  (BOM_Compositions b1 = BOM_Compositions b2 -> BOM_Compositions c1 = BOM_Compositions c2) /\
  (BOM_Properties b1 = BOM_Properties b2 -> BOM_Properties c1 = BOM_Properties c2) /\
  (BOM_Vulnerabilities b1 = BOM_Vulnerabilities b2 -> BOM_Vulnerabilities c1 = BOM_Vulnerabilities c2) /\
  (BOM_Annotations b1 = BOM_Annotations b2 -> BOM_Annotations c1 = BOM_Annotations c2) /\
  (BOM_Formulation b1 = BOM_Formulation b2 -> BOM_Formulation c1 = BOM_Formulation c2) /\
  (BOM_Declarations b1 = BOM_Declarations b2 -> BOM_Declarations c1 = BOM_Declarations c2) /\
  (BOM_Definitions b1 = BOM_Definitions b2 -> BOM_Definitions c1 = BOM_Definitions c2) /\
  (BOM_Citations b1 = BOM_Citations b2 -> BOM_Citations c1 = BOM_Citations c2) /\
  (BOM_Signature b1 = BOM_Signature b2 -> BOM_Signature c1 = BOM_Signature c2).
Proof.
  intros j b1 b2 c1 c2 H1 H2. destruct (json_own j b1 b2 c1 c2 H1 H2) as (vs1 & vs2 & -> & -> & L1 & L2 & O). destruct (agree vs1 vs2 L1 L2) as (G0 & G1 & G2 & G3 & G4 & G5 & G6 & G7 & G8 & G9 & G10 & G11 & G12 & G13 & G14 & G15 & G16 & G17 & G18 & G19 & G20).
  repeat match goal with |- _ /\ _ => split end; intros E; first [apply G0, O; cbn [nth_error bom_values fields_of_val reify_BOM]; rewrite E; reflexivity | apply G1, O; cbn [nth_error bom_values fields_of_val reify_BOM]; rewrite E; reflexivity | apply G2, O; cbn [nth_error bom_values fields_of_val reify_BOM]; rewrite E; reflexivity | apply G3, O; cbn [nth_error bom_values fields_of_val reify_BOM]; rewrite E; reflexivity | apply G4, O; cbn [nth_error bom_values fields_of_val reify_BOM]; rewrite E; reflexivity | apply G5, O; cbn [nth_error bom_values fields_of_val reify_BOM]; rewrite E; reflexivity | apply G6, O; cbn [nth_error bom_values fields_of_val reify_BOM]; rewrite E; reflexivity | apply G7, O; cbn [nth_error bom_values fields_of_val reify_BOM]; rewrite E; reflexivity | apply G8, O; cbn [nth_error bom_values fields_of_val reify_BOM]; rewrite E; reflexivity | apply G9, O; cbn [nth_error bom_values fields_of_val reify_BOM]; rewrite E; reflexivity | apply G10, O; cbn [nth_error bom_values fields_of_val reify_BOM]; rewrite E; reflexivity | apply G11, O; cbn [nth_error bom_values fields_of_val reify_BOM]; rewrite E; reflexivity | apply G12, O; cbn [nth_error bom_values fields_of_val reify_BOM]; rewrite E; reflexivity | apply G13, O; cbn [nth_error bom_values fields_of_val reify_BOM]; rewrite E; reflexivity | apply G14, O; cbn [nth_error bom_values fields_of_val reify_BOM]; rewrite E; reflexivity | apply G15, O; cbn [nth_error bom_values fields_of_val reify_BOM]; rewrite E; reflexivity | apply G16, O; cbn [nth_error bom_values fields_of_val reify_BOM]; rewrite E; reflexivity | apply G17, O; cbn [nth_error bom_values fields_of_val reify_BOM]; rewrite E; reflexivity | apply G18, O; cbn [nth_error bom_values fields_of_val reify_BOM]; rewrite E; reflexivity | apply G19, O; cbn [nth_error bom_values fields_of_val reify_BOM]; rewrite E; reflexivity | apply G20, O; cbn [nth_error bom_values fields_of_val reify_BOM]; rewrite E; reflexivity].
Qed.

(** A list that the document mentions has as many members as the document says (the last
    time it does), and what it says is null becomes nil, whatever was there. [last_member j n v]:
    the last member of [j] named [n] is [v]. *)
Theorem C39_json_lists : forall j b c, bom_of_json j b = Ok c ->
  (forall l, last_member j "components" (JArr l) -> length (ConvertSpec.members (BOM_Components c)) = length l) /\
  (forall l, last_member j "services" (JArr l) -> length (ConvertSpec.members (BOM_Services c)) = length l) /\
  (forall l, last_member j "externalReferences" (JArr l) -> length (ConvertSpec.members (BOM_ExternalReferences c)) = length l) /\
  (forall l, last_member j "dependencies" (JArr l) -> length (ConvertSpec.members (BOM_Dependencies c)) = length l) /\
  (forall l, last_member j "compositions" (JArr l) -> length (ConvertSpec.members (BOM_Compositions c)) = length l) /\
  (forall l, last_member j "properties" (JArr l) -> length (ConvertSpec.members (BOM_Properties c)) = length l) /\
  (forall l, last_member j "vulnerabilities" (JArr l) -> length (ConvertSpec.members (BOM_Vulnerabilities c)) = length l) /\
  (forall l, last_member j "annotations" (JArr l) -> length (ConvertSpec.members (BOM_Annotations c)) = length l) /\
  (forall l, last_member j "formulation" (JArr l) -> length (ConvertSpec.members (BOM_Formulation c)) = length l) /\
  (forall l, last_member j "citations" (JArr l) -> length (ConvertSpec.members (BOM_Citations c)) = length l).
Proof.
  intros j b c H. apply json_last in H as (vs & -> & L & K). pose proof (lengths_agree vs L) as G. cbv zeta in G.
  assert (A : forall i f n om t l, nth_error fields_BOM i = Some f -> json_info f = Some (n, om) -> f_ty f = TPtr (TSlice t) -> last_member j n (JArr l) -> length (list_at (nth_error vs i)) = length l).
  { intros i f n om t l Fi J T M. destruct (K i f n om (JArr l) Fi J) as (x & v & e & X & ->); [|exact M|].
    - intros k Q. eapply find_field_complete; [exact (struct_names (TRef "BOM") fields_BOM eq_refl)|exact Fi|exact J|congruence].
    - rewrite T in X. exact (array_length _ _ _ _ _ X). }
  destruct G as (G8 & G9 & G10 & G11 & G12 & G13 & G14 & G15 & G16 & G19).
  split; [intros l M; rewrite G8; exact (A 8%nat _ _ _ _ l eq_refl eq_refl eq_refl M)|].
  split; [intros l M; rewrite G9; exact (A 9%nat _ _ _ _ l eq_refl eq_refl eq_refl M)|].
  split; [intros l M; rewrite G10; exact (A 10%nat _ _ _ _ l eq_refl eq_refl eq_refl M)|].
  split; [intros l M; rewrite G11; exact (A 11%nat _ _ _ _ l eq_refl eq_refl eq_refl M)|].
  split; [intros l M; rewrite G12; exact (A 12%nat _ _ _ _ l eq_refl eq_refl eq_refl M)|].
  split; [intros l M; rewrite G13; exact (A 13%nat _ _ _ _ l eq_refl eq_refl eq_refl M)|].
  split; [intros l M; rewrite G14; exact (A 14%nat _ _ _ _ l eq_refl eq_refl eq_refl M)|].
  split; [intros l M; rewrite G15; exact (A 15%nat _ _ _ _ l eq_refl eq_refl eq_refl M)|].
  split; [intros l M; rewrite G16; exact (A 16%nat _ _ _ _ l eq_refl eq_refl eq_refl M)|].
  intros l M; rewrite G19; exact (A 19%nat _ _ _ _ l eq_refl eq_refl eq_refl M).
Qed.
Theorem C39_json_null : forall j b c, bom_of_json j b = Ok c ->
  (last_member j "components" JNull -> BOM_Components c = None) /\
  (last_member j "services" JNull -> BOM_Services c = None) /\
  (last_member j "externalReferences" JNull -> BOM_ExternalReferences c = None) /\
  (last_member j "dependencies" JNull -> BOM_Dependencies c = None) /\
  (last_member j "compositions" JNull -> BOM_Compositions c = None) /\
  (last_member j "properties" JNull -> BOM_Properties c = None) /\
  (last_member j "vulnerabilities" JNull -> BOM_Vulnerabilities c = None) /\
  (last_member j "annotations" JNull -> BOM_Annotations c = None) /\
  (last_member j "formulation" JNull -> BOM_Formulation c = None) /\
  (last_member j "citations" JNull -> BOM_Citations c = None) /\
  (last_member j "metadata" JNull -> BOM_Metadata c = None) /\
  (last_member j "declarations" JNull -> BOM_Declarations c = None) /\
  (last_member j "definitions" JNull -> BOM_Definitions c = None) /\
  (last_member j "signature" JNull -> BOM_Signature c = None).
Proof.
  intros j b c H. apply json_last in H as (vs & -> & L & K). pose proof (nil_agree vs L) as G. cbv zeta in G.
  assert (A : forall i f n om t, nth_error fields_BOM i = Some f -> json_info f = Some (n, om) -> f_ty f = TPtr t -> last_member j n JNull -> nth_error vs i = Some (VPtr None)).
  { intros i f n om t Fi J T M. destruct (K i f n om JNull Fi J) as (x & v & e & X & ->); [|exact M|].
    - intros k Q. eapply find_field_complete; [exact (struct_names (TRef "BOM") fields_BOM eq_refl)|exact Fi|exact J|congruence].
    - rewrite T in X. rewrite (null_pointer _ _ _ _ X). reflexivity. }
  destruct G as (G8 & G9 & G10 & G11 & G12 & G13 & G14 & G15 & G16 & G19 & G7 & G17 & G18 & G20).
  split; [intros M; exact (G8 (A 8%nat _ _ _ _ eq_refl eq_refl eq_refl M))|].
  split; [intros M; exact (G9 (A 9%nat _ _ _ _ eq_refl eq_refl eq_refl M))|].
  split; [intros M; exact (G10 (A 10%nat _ _ _ _ eq_refl eq_refl eq_refl M))|].
  split; [intros M; exact (G11 (A 11%nat _ _ _ _ eq_refl eq_refl eq_refl M))|].
  split; [intros M; exact (G12 (A 12%nat _ _ _ _ eq_refl eq_refl eq_refl M))|].
  split; [intros M; exact (G13 (A 13%nat _ _ _ _ eq_refl eq_refl eq_refl M))|].
  split; [intros M; exact (G14 (A 14%nat _ _ _ _ eq_refl eq_refl eq_refl M))|].
  split; [intros M; exact (G15 (A 15%nat _ _ _ _ eq_refl eq_refl eq_refl M))|].
  split; [intros M; exact (G16 (A 16%nat _ _ _ _ eq_refl eq_refl eq_refl M))|].
  split; [intros M; exact (G19 (A 19%nat _ _ _ _ eq_refl eq_refl eq_refl M))|].
  split; [intros M; exact (G7 (A 7%nat _ _ _ _ eq_refl eq_refl eq_refl M))|].
  split; [intros M; exact (G17 (A 17%nat _ _ _ _ eq_refl eq_refl eq_refl M))|].
  split; [intros M; exact (G18 (A 18%nat _ _ _ _ eq_refl eq_refl eq_refl M))|].
  intros M; exact (G20 (A 20%nat _ _ _ _ eq_refl eq_refl eq_refl M)).
Qed.

(** Decoding a document without repeated keys once more changes nothing. *)
Theorem C39_json_again : forall j b c, doc_unique j -> bom_of_json j b = Ok c -> bom_of_json j c = Ok c.
Proof. exact decoded_again. Qed.

(** ** XML *)

(** The document has a child element, an attribute, of that name. *)
Definition has_element (x : xml) (name : string) : Prop := match x with XElem _ _ _ ks => exists sp a ks', In (XElem sp name a ks') ks | XText _ => False end.
Definition has_attribute (x : xml) (name : string) : Prop := match x with XElem _ _ a _ => exists s, In (name, s) a | XText _ => False end.

(** What the document does not mention stays as it is; what only JSON has a place for
    always does. A document whose name space is not one of CycloneDX keeps the old version
    of the specification. *)
Theorem C39_xml_untouched : forall entries x b c, Permutation entries xmlNamespaces -> bom_of_xml entries x b = Ok c ->
  BOM_JSONSchema c = BOM_JSONSchema b /\
  BOM_BOMFormat c = BOM_BOMFormat b /\
  BOM_Signature c = BOM_Signature b /\
  (~ has_attribute x "xmlns" -> BOM_XMLNS c = BOM_XMLNS b) /\
  ((forall v, is_version v = true -> BOM_XMLNS c <> namespace_of v) -> BOM_SpecVersion c = BOM_SpecVersion b) /\
  (~ has_attribute x "serialNumber" -> BOM_SerialNumber c = BOM_SerialNumber b) /\
  (~ has_attribute x "version" -> BOM_Version c = BOM_Version b) /\
  (~ has_element x "metadata" -> BOM_Metadata c = BOM_Metadata b) /\
  (~ has_element x "components" -> BOM_Components c = BOM_Components b) /\
  (~ has_element x "services" -> BOM_Services c = BOM_Services b) /\
  (~ has_element x "externalReferences" -> BOM_ExternalReferences c = BOM_ExternalReferences b) /\
  (~ has_element x "dependencies" -> BOM_Dependencies c = BOM_Dependencies b) /\
  (~ has_element x "compositions" -> BOM_Compositions c = BOM_Compositions b) /\
  (~ has_element x "properties" -> BOM_Properties c = BOM_Properties b) /\
  (~ has_element x "vulnerabilities" -> BOM_Vulnerabilities c = BOM_Vulnerabilities b) /\
  (~ has_element x "annotations" -> BOM_Annotations c = BOM_Annotations b) /\
  (~ has_element x "formulation" -> BOM_Formulation c = BOM_Formulation b) /\
  (~ has_element x "declarations" -> BOM_Declarations c = BOM_Declarations b) /\
  (~ has_element x "definitions" -> BOM_Definitions c = BOM_Definitions b) /\
  (~ has_element x "citations" -> BOM_Citations c = BOM_Citations b).
Proof.
  intros entries x b c P H. unfold bom_of_xml in H. destruct (decoded_name entries x b c H) as (sp & a & ks & -> & _ & NS & SV). apply xml_dec in H as (sp' & a' & ks' & vs & [= <- <- <-] & L & D & ->).
  pose proof (agree vs (bom_values b) L eq_refl) as G. cbv zeta in G. change (VStruct (bom_values b)) with (reify_BOM b) in G. rewrite (inv_BOM b) in G.
  assert (K : forall i f, nth_error fields_BOM i = Some f -> is_chardata f = false -> String.eqb (f_name f) "XMLName" = false -> (forall n, is_attr n f = false) ->
    (forall t, top f = Some t -> ~ has_element (XElem sp "bom" a ks) t) -> nth_error vs i = nth_error (bom_values b) i).
  { intros i f Fi C N A T. eapply struct_keeps; [exact Fi|exact C|exact N| |exact T|exact D]. intros n s _. apply A. }
  assert (KA : forall i f n, nth_error fields_BOM i = Some f -> is_chardata f = false -> String.eqb (f_name f) "XMLName" = false -> (forall m, is_attr m f = String.eqb n m) -> top f = None ->
    ~ has_attribute (XElem sp "bom" a ks) n -> nth_error vs i = nth_error (bom_values b) i).
  { intros i f n Fi C N A T NA. eapply struct_keeps; [exact Fi|exact C|exact N| | |exact D].
    - intros m s I. rewrite A. apply String.eqb_neq. intros <-. apply NA. exists s. exact I.
    - intros t Q. congruence. }
  assert (KE : forall i f n, nth_error fields_BOM i = Some f -> is_chardata f = false -> String.eqb (f_name f) "XMLName" = false -> (forall n, is_attr n f = false) -> top f = Some n ->
    ~ has_element (XElem sp "bom" a ks) n -> nth_error vs i = nth_error (bom_values b) i).
  { intros i f n Fi C N A T NE. apply (K i f Fi C N A). intros t Q. congruence. }
  destruct G as (G0 & G1 & G2 & G3 & G4 & G5 & G6 & G7 & G8 & G9 & G10 & G11 & G12 & G13 & G14 & G15 & G16 & G17 & G18 & G19 & G20).
  split; [apply (G2 (K 2%nat _ eq_refl eq_refl eq_refl (fun n => eq_refl) ltac:(intros t Q; discriminate Q)))|].
  split; [apply (G3 (K 3%nat _ eq_refl eq_refl eq_refl (fun n => eq_refl) ltac:(intros t Q; discriminate Q)))|].
  split; [apply (G20 (K 20%nat _ eq_refl eq_refl eq_refl (fun n => eq_refl) ltac:(intros t Q; discriminate Q)))|].
  split; [intros N; apply (G1 (KA 1%nat _ "xmlns" eq_refl eq_refl eq_refl (fun n => eq_refl) eq_refl N))|].
  split; [intros N; rewrite SV; rewrite NS in N; apply (match_namespace_spec entries _ _ P); exact N|].
  split; [intros N; apply (G5 (KA 5%nat _ "serialNumber" eq_refl eq_refl eq_refl (fun n => eq_refl) eq_refl N))|].
  split; [intros N; apply (G6 (KA 6%nat _ "version" eq_refl eq_refl eq_refl (fun n => eq_refl) eq_refl N))|].
  split; [intros N; apply (G7 (KE 7%nat _ "metadata" eq_refl eq_refl eq_refl (fun n => eq_refl) eq_refl N))|].
  split; [intros N; apply (G8 (KE 8%nat _ "components" eq_refl eq_refl eq_refl (fun n => eq_refl) eq_refl N))|].
  split; [intros N; apply (G9 (KE 9%nat _ "services" eq_refl eq_refl eq_refl (fun n => eq_refl) eq_refl N))|].
  split; [intros N; apply (G10 (KE 10%nat _ "externalReferences" eq_refl eq_refl eq_refl (fun n => eq_refl) eq_refl N))|].
  split; [intros N; apply (G11 (KE 11%nat _ "dependencies" eq_refl eq_refl eq_refl (fun n => eq_refl) eq_refl N))|].
  split; [intros N; apply (G12 (KE 12%nat _ "compositions" eq_refl eq_refl eq_refl (fun n => eq_refl) eq_refl N))|].
  split; [intros N; apply (G13 (KE 13%nat _ "properties" eq_refl eq_refl eq_refl (fun n => eq_refl) eq_refl N))|].
  split; [intros N; apply (G14 (KE 14%nat _ "vulnerabilities" eq_refl eq_refl eq_refl (fun n => eq_refl) eq_refl N))|].
  split; [intros N; apply (G15 (KE 15%nat _ "annotations" eq_refl eq_refl eq_refl (fun n => eq_refl) eq_refl N))|].
  split; [intros N; apply (G16 (KE 16%nat _ "formulation" eq_refl eq_refl eq_refl (fun n => eq_refl) eq_refl N))|].
  split; [intros N; apply (G17 (KE 17%nat _ "declarations" eq_refl eq_refl eq_refl (fun n => eq_refl) eq_refl N))|].
  split; [intros N; apply (G18 (KE 18%nat _ "definitions" eq_refl eq_refl eq_refl (fun n => eq_refl) eq_refl N))|].
  intros N; apply (G19 (KE 19%nat _ "citations" eq_refl eq_refl eq_refl (fun n => eq_refl) eq_refl N)).
Qed.

(** A field of the result depends on the document and on that field only; the version also
    on the name space. *)
Theorem C39_xml_fields : forall entries x b1 b2 c1 c2, bom_of_xml entries x b1 = Ok c1 -> bom_of_xml entries x b2 = Ok c2 ->
  BOM_XMLName c1 = BOM_XMLName c2 /\
  (BOM_XMLNS b1 = BOM_XMLNS b2 -> BOM_SpecVersion b1 = BOM_SpecVersion b2 -> BOM_SpecVersion c1 = BOM_SpecVersion c2) /\
  (BOM_XMLNS b1 = BOM_XMLNS b2 -> BOM_XMLNS c1 = BOM_XMLNS c2) /\
  (BOM_JSONSchema b1 = BOM_JSONSchema b2 -> BOM_JSONSchema c1 = BOM_JSONSchema c2) /\
  (BOM_BOMFormat b1 = BOM_BOMFormat b2 -> BOM_BOMFormat c1 = BOM_BOMFormat c2) /\
  (BOM_SerialNumber b1 = BOM_SerialNumber b2 -> BOM_SerialNumber c1 = BOM_SerialNumber c2) /\
  (BOM_Version b1 = BOM_Version b2 -> BOM_Version c1 = BOM_Version c2) /\
  (BOM_Metadata b1 = BOM_Metadata b2 -> BOM_Metadata c1 = BOM_Metadata c2) /\
  (BOM_Components b1 = BOM_Components b2 -> BOM_Components c1 = BOM_Components c2) /\
  (BOM_Services b1 = BOM_Services b2 -> BOM_Services c1 = BOM_Services c2) /\
  (BOM_ExternalReferences b1 = BOM_ExternalReferences b2 -> BOM_ExternalReferences c1 = BOM_ExternalReferences c2) /\
  (BOM_Dependencies b1 = BOM_Dependencies b2 -> BOM_Dependencies c1 = BOM_Dependencies c2) /\
  (BOM_Compositions b1 = BOM_Compositions b2 -> BOM_Compositions c1 = BOM_Compositions c2) /\
  (BOM_Properties b1 = BOM_Properties b2 -> BOM_Properties c1 = BOM_Properties c2) /\
  (BOM_Vulnerabilities b1 = BOM_Vulnerabilities b2 -> BOM_Vulnerabilities c1 = BOM_Vulnerabilities c2) /\
  (BOM_Annotations b1 = BOM_Annotations b2 -> BOM_Annotations c1 = BOM_Annotations c2) /\
  (BOM_Formulation b1 = BOM_Formulation b2 -> BOM_Formulation c1 = BOM_Formulation c2) /\
  (BOM_Declarations b1 = BOM_Declarations b2 -> BOM_Declarations c1 = BOM_Declarations c2) /\
  (BOM_Definitions b1 = BOM_Definitions b2 -> BOM_Definitions c1 = BOM_Definitions c2) /\
  (BOM_Citations b1 = BOM_Citations b2 -> BOM_Citations c1 = BOM_Citations c2) /\
  (BOM_Signature b1 = BOM_Signature b2 -> BOM_Signature c1 = BOM_Signature c2).
Proof.
  intros entries x b1 b2 c1 c2 H1 H2. unfold bom_of_xml in *. destruct (decoded_name entries x b1 c1 H1) as (sp & a & ks & -> & N1 & _ & S1). destruct (decoded_name entries _ b2 c2 H2) as (sp' & a' & ks' & [= <- <- <-] & N2 & _ & S2).
  apply xml_dec in H1 as (sp' & a' & ks' & vs1 & [= <- <- <-] & L1 & D1 & ->). apply xml_dec in H2 as (sp' & a' & ks' & vs2 & [= <- <- <-] & L2 & D2 & ->).
  split; [congruence|]. split; [intros E1 E2; rewrite S1, S2, E1, E2; reflexivity|]. clear N1 N2 S1 S2.
  assert (O : forall i, nth_error (bom_values b1) i = nth_error (bom_values b2) i -> nth_error vs1 i = nth_error vs2 i).
  { intros i E. refine (proj2 (struct_own _ _ _ _ _ _ _ _ _ _ i _ D1 D2)). split; [reflexivity|exact E]. }
  destruct (agree vs1 vs2 L1 L2) as (G0 & G1 & G2 & G3 & G4 & G5 & G6 & G7 & G8 & G9 & G10 & G11 & G12 & G13 & G14 & G15 & G16 & G17 & G18 & G19 & G20). cbn [BOM_XMLNS BOM_JSONSchema BOM_BOMFormat set_BOM_SpecVersion].
  repeat match goal with |- _ /\ _ => split end; intros E; first [apply G0, O; cbn [nth_error bom_values fields_of_val reify_BOM]; rewrite E; reflexivity | apply G1, O; cbn [nth_error bom_values fields_of_val reify_BOM]; rewrite E; reflexivity | apply G2, O; cbn [nth_error bom_values fields_of_val reify_BOM]; rewrite E; reflexivity | apply G3, O; cbn [nth_error bom_values fields_of_val reify_BOM]; rewrite E; reflexivity | apply G4, O; cbn [nth_error bom_values fields_of_val reify_BOM]; rewrite E; reflexivity | apply G5, O; cbn [nth_error bom_values fields_of_val reify_BOM]; rewrite E; reflexivity | apply G6, O; cbn [nth_error bom_values fields_of_val reify_BOM]; rewrite E; reflexivity | apply G7, O; cbn [nth_error bom_values fields_of_val reify_BOM]; rewrite E; reflexivity | apply G8, O; cbn [nth_error bom_values fields_of_val reify_BOM]; rewrite E; reflexivity | apply G9, O; cbn [nth_error bom_values fields_of_val reify_BOM]; rewrite E; reflexivity | apply G10, O; cbn [nth_error bom_values fields_of_val reify_BOM]; rewrite E; reflexivity | apply G11, O; cbn [nth_error bom_values fields_of_val reify_BOM]; rewrite E; reflexivity | apply G12, O; cbn [nth_error bom_values fields_of_val reify_BOM]; rewrite E; reflexivity | apply G13, O; cbn [nth_error bom_values fields_of_val reify_BOM]; rewrite E; reflexivity | apply G14, O; cbn [nth_error bom_values fields_of_val reify_BOM]; rewrite E; reflexivity | apply G15, O; cbn [nth_error bom_values fields_of_val reify_BOM]; rewrite E; reflexivity | apply G16, O; cbn [nth_error bom_values fields_of_val reify_BOM]; rewrite E; reflexivity | apply G17, O; cbn [nth_error bom_values fields_of_val reify_BOM]; rewrite E; reflexivity | apply G18, O; cbn [nth_error bom_values fields_of_val reify_BOM]; rewrite E; reflexivity | apply G19, O; cbn [nth_error bom_values fields_of_val reify_BOM]; rewrite E; reflexivity | apply G20, O; cbn [nth_error bom_values fields_of_val reify_BOM]; rewrite E; reflexivity].
Qed.

(** Lists are not replaced: the result has what the BOM had before, followed by what the
    document has. *)
Theorem C39_xml_appends : forall entries x b c c0, bom_of_xml entries x b = Ok c -> bom_of_xml entries x zero_BOM = Ok c0 ->
  ConvertSpec.members (BOM_Components c) = (ConvertSpec.members (BOM_Components b) ++ ConvertSpec.members (BOM_Components c0))%list /\
  ConvertSpec.members (BOM_Services c) = (ConvertSpec.members (BOM_Services b) ++ ConvertSpec.members (BOM_Services c0))%list /\
  ConvertSpec.members (BOM_ExternalReferences c) = (ConvertSpec.members (BOM_ExternalReferences b) ++ ConvertSpec.members (BOM_ExternalReferences c0))%list /\
  ConvertSpec.members (BOM_Dependencies c) = (ConvertSpec.members (BOM_Dependencies b) ++ ConvertSpec.members (BOM_Dependencies c0))%list /\
  ConvertSpec.members (BOM_Compositions c) = (ConvertSpec.members (BOM_Compositions b) ++ ConvertSpec.members (BOM_Compositions c0))%list /\
  ConvertSpec.members (BOM_Properties c) = (ConvertSpec.members (BOM_Properties b) ++ ConvertSpec.members (BOM_Properties c0))%list /\
  ConvertSpec.members (BOM_Vulnerabilities c) = (ConvertSpec.members (BOM_Vulnerabilities b) ++ ConvertSpec.members (BOM_Vulnerabilities c0))%list /\
  ConvertSpec.members (BOM_Annotations c) = (ConvertSpec.members (BOM_Annotations b) ++ ConvertSpec.members (BOM_Annotations c0))%list /\
  ConvertSpec.members (BOM_Formulation c) = (ConvertSpec.members (BOM_Formulation b) ++ ConvertSpec.members (BOM_Formulation c0))%list /\
  ConvertSpec.members (BOM_Citations c) = (ConvertSpec.members (BOM_Citations b) ++ ConvertSpec.members (BOM_Citations c0))%list.
Proof.
  intros entries x b c c0 H H0. unfold bom_of_xml in *. apply xml_dec in H as (sp & a & ks & vs & -> & L & D & ->). apply xml_dec in H0 as (sp' & a' & ks' & us & [= <- <- <-] & L0 & D0 & ->).
  assert (S : forall i f t, nth_error fields_BOM i = Some f -> f_ty f = TPtr (TSlice t) -> is_chardata f = false -> String.eqb (f_name f) "XMLName" = false -> (forall n, is_attr n f = false) -> list_at (nth_error (bom_values zero_BOM) i) = [] ->
    list_at (nth_error vs i) = (list_at (nth_error (bom_values b) i) ++ list_at (nth_error us i))%list).
  { intros i f t Fi T C N A Z. refine (struct_grows _ _ _ _ _ _ _ _ _ _ _ _ _ Fi T C N A _ Z D D0). reflexivity. }
  assert (A : forall i, In i [8%nat; 9%nat; 10%nat; 11%nat; 12%nat; 13%nat; 14%nat; 15%nat; 16%nat; 19%nat] -> list_at (nth_error vs i) = (list_at (nth_error (bom_values b) i) ++ list_at (nth_error us i))%list).
  { intros i I. cbn [In] in I. repeat (destruct I as [<-|I]; [eapply S; reflexivity|]). contradiction I. }
  destruct (lists_agree _ vs (bom_values b) us L eq_refl L0 A) as (G8 & G9 & G10 & G11 & G12 & G13 & G14 & G15 & G16 & G19). change (VStruct (bom_values b)) with (reify_BOM b) in *. rewrite (inv_BOM b) in *.
  repeat match goal with |- _ /\ _ => split end; first [apply G8; cbn; tauto | apply G9; cbn; tauto | apply G10; cbn; tauto | apply G11; cbn; tauto | apply G12; cbn; tauto | apply G13; cbn; tauto | apply G14; cbn; tauto | apply G15; cbn; tauto | apply G16; cbn; tauto | apply G19; cbn; tauto].
Qed.

(** So a second document, or the same one again, adds to the lists. *)
Theorem C39_xml_twice : forall entries x c, bom_of_xml entries x zero_BOM = Ok c -> exists c2, bom_of_xml entries x c = Ok c2 /\
  ConvertSpec.members (BOM_Components c2) = (ConvertSpec.members (BOM_Components c) ++ ConvertSpec.members (BOM_Components c))%list /\
  ConvertSpec.members (BOM_Dependencies c2) = (ConvertSpec.members (BOM_Dependencies c) ++ ConvertSpec.members (BOM_Dependencies c))%list.
Proof.
  intros entries x c H. pose proof (xml_outcome entries x zero_BOM c) as S. rewrite H in S. destruct (bom_of_xml entries x c) as [c2|] eqn:H2; [|contradiction].
  exists c2. split; [reflexivity|]. destruct (C39_xml_appends entries x c c2 c H2 H) as (A & _ & _ & D & _). split; [exact A|exact D].
Qed.

(** ** Whether decoding succeeds *)

(** The same bytes decode, fail with the same error or wait for more, whatever the BOM
    holds. *)
Definition same_outcome {E A} (r1 r2 : option (result E A)) : Prop :=
  (r1 = None <-> r2 = None) /\ (forall e, r1 = Some (Err e) <-> r2 = Some (Err e)) /\ ((exists c, r1 = Some (Ok c)) <-> (exists c, r2 = Some (Ok c))).
Theorem C39_json_same_outcome : forall ds b1 b2, same_outcome (json_decode ds b1) (json_decode ds b2).
Proof.
  intros ds b1 b2. unfold json_decode. destruct (read_all "" ds) as [[s|e]|]; try (repeat split; trivial; fail).
  unfold unmarshal_bom. destruct (parse s) as [j|]; [|repeat split; intros; try discriminate; try assumption; destruct H; discriminate].
  pose proof (json_outcome j b1 b2) as S. destruct (bom_of_json j b1), (bom_of_json j b2); try contradiction; [|subst; repeat split; trivial].
  repeat split; try discriminate; intros _; eexists; reflexivity.
Qed.
Theorem C39_xml_same_outcome : forall entries ds b1 b2, same_outcome (xml_decode entries ds b1) (xml_decode entries ds b2).
Proof.
  intros entries ds b1 b2. unfold xml_decode. destruct (delivered ds) as [s ended]. unfold xml_unmarshal. destruct (xml_parse s) as [x|]; [|destruct ended; repeat split; trivial].
  pose proof (xml_outcome entries x b1 b2) as S. destruct (bom_of_xml entries x b1), (bom_of_xml entries x b2); try contradiction; [|subst; repeat split; trivial].
  repeat split; try discriminate; intros _; eexists; reflexivity.
Qed.

(** ** What does not hold *)
Definition lib (name description : string) : Component := set_Component_Description description (set_Component_Name name (set_Component_Type "library" zero_Component)).
Definition b_used : BOM := set_BOM_SerialNumber "urn:old" (set_BOM_Components (Some (Some [lib "a" "old"; lib "z" ""])) (set_BOM_SpecVersion v1_6 NewBOM)).
Definition d_new : json := JObj [("specVersion", JStr "1.5"); ("Components", JArr [JObj [("type", JStr "library"); ("name", JStr "b")]])].
Definition x_new : xml := XElem "http://cyclonedx.org/schema/bom/1.5" "bom" [("xmlns", "http://cyclonedx.org/schema/bom/1.5"); ("version", "3")]
  [XElem "" "components" [] [XElem "" "component" [("type", "library")] [XElem "" "name" [] [XText "b"]]; XElem "" "component" [("type", "library")] [XElem "" "name" [] [XText "c"]]]].
Definition after_json : BOM := match bom_of_json d_new b_used with Ok c => c | Err _ => zero_BOM end.
Definition after_xml : BOM := match bom_of_xml xmlNamespaces x_new b_used with Ok c => c | Err _ => zero_BOM end.

(** What the document does mention need not be as if the BOM had been fresh. In JSON the
    components of the document are put over the old ones: *)
Theorem C39_json_fresh_refuted : exists j b c c0, bom_of_json j b = Ok c /\ bom_of_json j zero_BOM = Ok c0 /\ last_member j "components" (JArr [JObj [("type", JStr "library"); ("name", JStr "b")]]) /\
  BOM_Components c = Some (Some [lib "b" "old"]) /\ BOM_Components c0 = Some (Some [lib "b" ""]).
Proof.
  exists d_new, b_used, after_json. eexists. split; [vm_compute; reflexivity|]. split; [vm_compute; reflexivity|].
  split; [exists [("specVersion", JStr "1.5")], "Components", []; split; [reflexivity|]; split; [reflexivity|intros k v []]|]. split; vm_compute; reflexivity.
Qed.
(** and the result may be one that cannot be encoded, although the old BOM and the document
    are fine: both alternatives of a choice are then there. *)
Definition b_many : BOM := set_BOM_Components (Some (Some [set_Component_Evidence (Some (set_Evidence_Identity (Some (mkEvidenceIdentityChoice None (Some (Some [zero_EvidenceIdentity])))) zero_Evidence)) (lib "a" "")])) NewBOM.
Definition d_one : json := JObj [("specVersion", JStr "1.6"); ("components", JArr [JObj [("type", JStr "library"); ("name", JStr "b"); ("evidence", JObj [("identity", JObj [("field", JStr "name")])])]])].
Theorem C39_json_choice_refuted : exists j b c c0, bom_of_json j b = Ok c /\ bom_of_json j zero_BOM = Ok c0 /\
  (exists o, bom_to_json false b = Ok o) /\ (exists o, bom_to_json false c0 = Ok o) /\ (exists e, bom_to_json false c = Err e).
Proof.
  exists d_one, b_many. eexists. eexists. split; [vm_compute; reflexivity|]. split; [vm_compute; reflexivity|]. repeat split; eexists; vm_compute; reflexivity.
Qed.
(** In XML they are added, as [C39_xml_appends] says: *)
Theorem C39_xml_fresh_refuted : exists entries x b c c0, Permutation entries xmlNamespaces /\ bom_of_xml entries x b = Ok c /\ bom_of_xml entries x zero_BOM = Ok c0 /\ has_element x "components" /\
  BOM_Components c = Some (Some [lib "a" "old"; lib "z" ""; lib "b" ""; lib "c" ""]) /\ BOM_Components c0 = Some (Some [lib "b" ""; lib "c" ""]).
Proof.
  exists xmlNamespaces, x_new, b_used, after_xml. eexists. split; [apply Permutation_refl|]. split; [vm_compute; reflexivity|]. split; [vm_compute; reflexivity|].
  split; [do 3 eexists; left; reflexivity|]. split; vm_compute; reflexivity.
Qed.

(** The hypotheses hold of something: *)
Example C39_json_nonvacuous : bom_of_json d_new b_used = Ok after_json /\ ~ mentions d_new "serialNumber" /\ mentions d_new "components" /\
  BOM_SerialNumber after_json = "urn:old" /\ BOM_SpecVersion after_json = v1_5 /\ doc_utf8 d_new /\ doc_unique d_new /\
  (exists c, bom_of_json d_new zero_BOM = Ok c) /\ exists c, bom_of_json (JObj [("components", JNull)]) b_used = Ok c /\ BOM_Components c = None.
Proof.
  split; [vm_compute; reflexivity|]. split; [intros (k & m & I & Q); destruct I as [[= <- <-]|[[= <- <-]|[]]]; vm_compute in Q; discriminate Q|].
  split; [exists "Components"; eexists; split; [right; left; reflexivity|reflexivity]|]. split; [vm_compute; reflexivity|]. split; [vm_compute; reflexivity|].
  split; [unfold d_new; cbn [doc_utf8 list_all map fst snd]; repeat split; apply JsonOut.ascii_utf8; reflexivity|]. split.
  - split; [repeat constructor; vm_compute; intuition discriminate|]. cbn. repeat split; repeat constructor; vm_compute; intuition discriminate.
  - split; [eexists; vm_compute; reflexivity|]. eexists. split; [vm_compute; reflexivity|reflexivity].
Qed.
Example C39_xml_nonvacuous : bom_of_xml xmlNamespaces x_new b_used = Ok after_xml /\ ~ has_attribute x_new "serialNumber" /\ ~ has_element x_new "services" /\ BOM_SerialNumber after_xml = "urn:old" /\ BOM_Version after_xml = 3%Z /\
  (exists c, bom_of_xml xmlNamespaces x_new zero_BOM = Ok c) /\ exists c, bom_of_xml xmlNamespaces x_new after_xml = Ok c /\ length (ConvertSpec.members (BOM_Components c)) = 6%nat.
Proof.
  split; [vm_compute; reflexivity|]. split; [intros (s & [Q|[Q|[]]]); discriminate Q|]. split; [intros (sp & a & ks & [Q|[]]); discriminate Q|]. split; [vm_compute; reflexivity|]. split; [vm_compute; reflexivity|].
  split; [eexists; vm_compute; reflexivity|]. eexists. split; [vm_compute; reflexivity|reflexivity].
Qed.

(** ** C34: repeated keys *)

(** A BOM decoded from any document, whatever keys it repeats: if it encodes, decoding that
    gives some BOM or hits the limit on depth, and gives the same BOM exactly if nothing in
    it is lost by encoding. *)
Theorem C34_any_document : forall j c esc o, doc_utf8 j -> bom_of_json j zero_BOM = Ok c -> json_encode esc c = Ok o ->
  bom_of_json (erase o) zero_BOM = Err ETooDeep \/ exists d, bom_of_json (erase o) zero_BOM = Ok d /\ (d = c <-> lossless (TRef "BOM") (reify_BOM c)).
Proof.
  intros j c esc o U D E. destruct (too_deep (erase o)) eqn:T; [left; unfold bom_of_json; rewrite T; reflexivity|]. right.
  assert (V : json_view c = c) by (destruct (C39_json_untouched j zero_BOM c D) as (V1 & V2 & _); destruct c; cbn in V1, V2; subst; reflexivity).
  assert (F : fit (TRef "BOM") (reify_BOM c)).
  { unfold bom_of_json in D. destruct (too_deep j); [discriminate|]. apply bind_inv in D as (v & Ev & Q). injection Q as <-. apply finish_ok in Ev. rewrite bom_zero in Ev.
    pose proof (dec_fit j _ v U bom_wk Ev) as F. rewrite (reify_reflect v F). exact F. }
  pose proof (encode_writes _ _ _ E) as (W & G). assert (S : sane (TRef "BOM") (reify_BOM c)) by (apply bom_fit_sane; assumption).
  destruct (bom_back esc c o S W T) as (d & X & _). exists d. split; [exact X|]. pose proof (bom_round esc c o S E T) as R. rewrite V in R. rewrite <- R, X. split; congruence.
Qed.
(** It need not be the same: a repeated key may set two alternatives, of which only one is
    written. *)
Definition asserter_twice : json := JObj [("specVersion", JStr "1.6");
  ("components", JArr [JObj [("type", JStr "library"); ("name", JStr "n"); ("patentAssertions", JArr [JObj [("asserter", JObj [("individual", JObj [("name", JStr "i")])]); ("asserter", JObj [("organization", JObj [("name", JStr "o")])])]])]])].
Theorem C34_duplicates_refuted : exists j c o d, doc_utf8 j /\ bom_of_json j zero_BOM = Ok c /\ json_encode false c = Ok o /\ bom_of_json (erase o) zero_BOM = Ok d /\ d <> c.
Proof.
  exists asserter_twice. do 3 eexists. split; [unfold asserter_twice; cbn [doc_utf8 list_all map fst snd]; repeat split; apply JsonOut.ascii_utf8; reflexivity|]. split; [vm_compute; reflexivity|].
  split; [vm_compute; reflexivity|]. split; [vm_compute; reflexivity|]. intros E. apply (f_equal BOM_Components) in E. vm_compute in E. discriminate E.
Qed.

Definition reuse_theorems := (C34_any_document, C34_duplicates_refuted, C39_json_untouched, C39_json_fields, C39_json_lists, C39_json_null, C39_json_again, C39_xml_untouched, C39_xml_fields, C39_xml_appends, C39_xml_twice, C39_json_same_outcome, C39_xml_same_outcome, C39_json_fresh_refuted, C39_json_choice_refuted, C39_xml_fresh_refuted).
Print Assumptions reuse_theorems.
