(** Property theorems for C41: what Decode makes of an XML document depends only on its
    elements, attributes and texts, not on how they are spelled. The grammar is in
    XmlGrammar.v: [xdocument s x] says that the text [s] has the root element [x], and
    [same_document x y] that two trees say the same. *)
From Verif Require Import Base Types Univ Reify Consts Version Utf8 JsonModel JsonSpec JsonText JsonGrammar JsonGrammarProofs ConvertSpec XmlModel XmlSpec XmlTop XmlText XmlTextProofs XmlTextMore XmlIO JsonIO JsonTextMore XmlGrammar XmlAlike XmlGrammarProofs
  PropsXml PropsXmlText.
From Coq Require Import Permutation.
Local Open Scope string_scope.

(** Every text of the grammar is read, and as the tree it stands for. *)
Theorem C41_xml_reads : forall entries s x b, xdocument s x ->
  xml_unmarshal entries s b = match bom_of_xml entries x b with Ok c => Ok c | Err e => Err (XTree e) end.
Proof. intros entries s x b D. unfold xml_unmarshal. rewrite (document_parse s x D). reflexivity. Qed.
(** However a reader hands out the bytes, and even if it has not come to its end. *)
Theorem C41_xml_delivered : forall entries ds s ended x b, delivered ds = (s, ended) -> xdocument s x -> xml_decode entries ds b = Some (xml_unmarshal entries s b).
Proof. intros entries ds s ended x b E D. unfold xml_decode. rewrite E, (document_parse s x D). reflexivity. Qed.
(** A text has at most one root element. *)
Theorem C41_xml_unambiguous : forall s x y, xdocument s x -> xdocument s y -> x = y.
Proof. intros s x y X Y. apply document_parse in X, Y. rewrite X in Y. injection Y as Y. exact Y. Qed.
(** Documents that say the same decode alike, into whatever BOM, errors included. *)
Theorem C41_xml_layout : forall entries s s' x y b, xdocument s x -> xdocument s' y -> same_document x y -> xml_unmarshal entries s b = xml_unmarshal entries s' b.
Proof. intros entries s s' x y b X Y S. rewrite (C41_xml_reads _ _ _ _ X), (C41_xml_reads _ _ _ _ Y), (alike_decoded entries x y b S). reflexivity. Qed.
(** In particular other spellings of what Encode writes. *)
Theorem C41_xml_written : forall pretty b s, xml_encode_text pretty b = Ok s -> exists e, bom_to_xml b = Ok [e] /\ xdocument s (xml_seen pretty e).
Proof.
  intros pretty b s E. destruct (C37_document pretty b s E) as (e & B & P & S & X). exists e. split; [exact B|]. rewrite S. apply written_document; [|exact P].
  destruct e as [t|]; [|reflexivity]. exfalso. apply (root_attrs b) in B. destruct B as (a & ks & B & _). discriminate.
Qed.
Theorem C41_xml_respelled : forall entries pretty b s e s' y b0, xml_encode_text pretty b = Ok s -> bom_to_xml b = Ok [e] -> xdocument s' y -> same_document (xml_seen pretty e) y ->
  xml_unmarshal entries s' b0 = xml_unmarshal entries s b0.
Proof.
  intros entries pretty b s e s' y b0 E B Y S. destruct (C41_xml_written pretty b s E) as (e' & B' & X). rewrite B in B'. assert (Q : e = e') by congruence. subst e'.
  symmetry. exact (C41_xml_layout entries s s' _ y b0 X Y S).
Qed.

(** To show that literals are texts of the grammar *)
Lemma simple_by n : match n with "" => false | String a s => letter a && str_all letter_or_digit s end = true -> simple_name n.
Proof. destruct n as [|a s]; [discriminate|]. intros H. apply andb_prop in H as [A B]. exists a, s. repeat split; assumption. Qed.
Lemma white_by w : str_all (fun a => existsb (Ascii.eqb a) [" "; "009"; "010"; "013"]%char) w = true -> white w.
Proof.
  induction w as [|a w IH]; [constructor|]. intros H. cbn [str_all] in H. apply andb_prop in H as [A B]. constructor; [|apply IH, B].
  apply existsb_exists in A as (c & I & A). apply Ascii.eqb_eq in A. subst c. exact I.
Qed.
Definition plain_byte (q : option ascii) (a : ascii) : bool := negb (Ascii.eqb a "<" || Ascii.eqb a "&" || Ascii.eqb a cr || match q with Some m => Ascii.eqb a m | None => false end).
Lemma spelled_by q t : str_all (plain_byte q) t = true -> spelled q t t.
Proof.
  induction t as [|a t IH]; [constructor|]. intros H. cbn [str_all] in H. apply andb_prop in H as [A B]. unfold plain_byte in A. apply negb_true_iff in A.
  apply orb_false_iff in A as [A A4]. apply orb_false_iff in A as [A A3]. apply orb_false_iff in A as [A1 A2]. apply Ascii.eqb_neq in A1, A2, A3. constructor; try assumption; [|apply IH, B].
  intros E. subst q. rewrite Ascii.eqb_refl in A4. discriminate.
Qed.
Lemma lines_by t : str_all (fun a => negb (Ascii.eqb a cr)) t = true -> lines t t.
Proof. induction t as [|a t IH]; [constructor|]. intros H. cbn [str_all] in H. apply andb_prop in H as [A B]. constructor; [|apply IH, B]. apply negb_true_iff, Ascii.eqb_neq in A. exact A. Qed.
Fixpoint has (p s : string) : bool := (String.prefix p s || match s with "" => false | String _ s' => has p s' end)%bool.
Lemma prefix_front p b : String.prefix p (p ++ b) = true.
Proof. induction p as [|a p IH]; [destruct b; reflexivity|]. cbn [append String.prefix]. destruct (ascii_dec a a) as [_|N]; [exact IH|exfalso; apply N; reflexivity]. Qed.
Lemma occurs_by p s : has p s = false -> ~ occurs p s.
Proof.
  intros H (a & b & ->). induction a as [|c a IH]; cbn [append] in H.
  - assert (E : has p (p ++ b) = true) by (destruct p as [|d p]; [destruct b; reflexivity|cbn [append has]; rewrite <- (prefix_front (String d p) b); cbn [append]; destruct (String.prefix _ _) eqn:Q; [reflexivity|]; exfalso; pose proof (prefix_front (String d p) b) as F; cbn [append] in F; rewrite Q in F; discriminate]).
    rewrite E in H. discriminate.
  - cbn [has] in H. apply orb_false_iff in H as [_ H]. exact (IH H).
Qed.
Ltac by_name_of := first [apply wn_local; apply simple_by; reflexivity|match goal with |- written_name (?p ++ ":" ++ ?l) _ => apply wn_prefix; apply simple_by; reflexivity end].
Ltac by_element := split; [by_name_of|split; [cbn; intuition discriminate|discriminate]].
Ltac by_marks := first [left; reflexivity|right; reflexivity].
Ltac by_attr n v w q t := eapply (at_one n _ v w q t); [by_name_of|apply white_by; reflexivity|apply white_by; reflexivity|by_marks|apply spelled_by; reflexivity|reflexivity].
Lemma data_by ns t r ks : t <> "" -> str_all (plain_byte None) t = true -> has "]]>" t = false -> xml_clean t = t -> xcontent ns r ks -> markup r -> xcontent ns (t ++ r) (XText t :: ks).
Proof. intros A B C D E F. apply xc_text; try assumption; [apply spelled_by, B|apply occurs_by, C]. Qed.
Lemma document_by s s' x x' : xdocument s x -> s = s' -> x = x' -> xdocument s' x'.
Proof. intros D <- <-. exact D. Qed.

Definition u16 : string := "http://cyclonedx.org/schema/bom/1.6".
Definition x_one : string :=
  "<?xml version=""1.0""?><bom xmlns=""" ++ u16 ++ """ xmlns:k=""" ++ u16 ++ """ version=""2""><metadata/><components><component type=""library""><name>a&amp;b</name></component></components></bom>".
Definition x_two : string :=
  "<!-- by hand --> <bom version = '2' xmlns='" ++ u16 ++ "' xmlns:k='" ++ u16 ++ "' > <metadata></metadata><k:components><component type=""library""><?x y?><k:name>a<![CDATA[&]]>b</k:name ></component></k:components></bom>rest".
Definition x_kids (root : list xml) (name : list xml) : list xml :=
  root ++ [XElem u16 "metadata" [] []; XElem u16 "components" [] [XElem u16 "component" [("type", "library")] [XElem u16 "name" [] name]]].
Definition x_tree1 : xml := XElem u16 "bom" [("xmlns", u16); ("k", u16); ("version", "2")] (x_kids [] [XText "a&b"]).
Definition x_tree2 : xml := XElem u16 "bom" [("version", "2"); ("xmlns", u16); ("k", u16)] (x_kids [XText " "] [XText "a"; XText "&"; XText "b"]).
Lemma x_one_reads : xdocument x_one x_tree1.
Proof.
  eapply document_by. { eapply (xd _ _ _ "").
  - eapply (pr_skip _ ""); [eapply (sk_declaration " version=""1.0"""); cbn; tauto|constructor].
  - eapply (xe_full no_scope "bom" ("", "bom") _ [(("", "xmlns"), u16); (("xmlns", "k"), u16); (("", "version"), "2")] "" _ _ ""); [by_element| |constructor| |constructor].
    + eapply (as_more " " _ _ _ _); [apply white_by; reflexivity|discriminate|by_attr "xmlns" "" "" quote_mark u16|].
      eapply (as_more " " _ _ _ _); [apply white_by; reflexivity|discriminate|by_attr ("xmlns" ++ ":" ++ "k") "" "" quote_mark u16|].
      eapply (as_more " " _ _ "" _); [apply white_by; reflexivity|discriminate|by_attr "version" "" "" quote_mark "2"|constructor].
    + eapply xc_element; [eapply (xe_empty _ "metadata" ("", "metadata") "" [] ""); [by_element|constructor|constructor]|].
      eapply (xc_element _ _ _ ""); [|constructor]. eapply (xe_full _ "components" ("", "components") "" [] "" _ _ ""); [by_element|constructor|constructor| |constructor].
      eapply (xc_element _ _ _ ""); [|constructor]. eapply (xe_full _ "component" ("", "component") _ [(("", "type"), "library")] "" _ _ ""); [by_element| |constructor| |constructor].
      * eapply (as_more " " _ _ "" _); [apply white_by; reflexivity|discriminate|by_attr "type" "" "" quote_mark "library"|constructor].
      * eapply (xc_element _ _ _ ""); [|constructor]. eapply (xe_full _ "name" ("", "name") "" [] "" _ _ ""); [by_element|constructor|constructor| |constructor].
        eapply (xc_text _ "a&amp;b" "a&b" ""); [discriminate| |apply occurs_by; reflexivity|reflexivity|left; reflexivity|constructor].
        apply sp_byte; try discriminate. apply (sp_reference _ "amp" "&" "b" "b"); [apply re_name; cbn; tauto|apply spelled_by; reflexivity]. } all: reflexivity.
Qed.
Lemma x_two_reads : xdocument x_two x_tree2.
Proof.
  eapply document_by. { eapply (xd _ _ _ "rest").
  - eapply pr_skip; [eapply (sk_comment " by hand "), occurs_by; reflexivity|].
    eapply (pr_white " " ""); [apply white_by; reflexivity|discriminate|left; reflexivity|constructor].
  - eapply (xe_full no_scope "bom" ("", "bom") _ [(("", "version"), "2"); (("", "xmlns"), u16); (("xmlns", "k"), u16)] " " _ _ ""); [by_element| |apply white_by; reflexivity| |constructor].
    + eapply (as_more " " _ _ _ _); [apply white_by; reflexivity|discriminate|by_attr "version" " " " " "'"%char "2"|].
      eapply (as_more " " _ _ _ _); [apply white_by; reflexivity|discriminate|by_attr "xmlns" "" "" "'"%char u16|].
      eapply (as_more " " _ _ "" _); [apply white_by; reflexivity|discriminate|by_attr ("xmlns" ++ ":" ++ "k") "" "" "'"%char u16|constructor].
    + eapply (data_by _ " "); [discriminate|reflexivity|reflexivity|reflexivity| |shelve].
      eapply xc_element; [eapply (xe_full _ "metadata" ("", "metadata") "" [] "" "" [] ""); [by_element|constructor|constructor|constructor|constructor]|].
      eapply (xc_element _ _ _ ""); [|constructor]. eapply (xe_full _ ("k" ++ ":" ++ "components") ("k", "components") "" [] "" _ _ ""); [by_element|constructor|constructor| |constructor].
      eapply (xc_element _ _ _ ""); [|constructor]. eapply (xe_full _ "component" ("", "component") _ [(("", "type"), "library")] "" _ _ ""); [by_element| |constructor| |constructor].
      * eapply (as_more " " _ _ "" _); [apply white_by; reflexivity|discriminate|by_attr "type" "" "" quote_mark "library"|constructor].
      * eapply xc_skip; [eapply (sk_instruction "x" " y"); [apply simple_by; reflexivity|discriminate|right; apply white_by; reflexivity|apply occurs_by; reflexivity]|].
        eapply (xc_element _ _ _ ""); [|constructor]. eapply (xe_full _ ("k" ++ ":" ++ "name") ("k", "name") "" [] "" _ _ " "); [by_element|constructor|constructor| |apply white_by; reflexivity].
        eapply (data_by _ "a"); [discriminate|reflexivity|reflexivity|reflexivity| |shelve].
        eapply (xc_cdata _ "&"); [apply lines_by; reflexivity|apply occurs_by; reflexivity|reflexivity|].
        eapply (xc_text _ "b" _ ""); [discriminate|apply spelled_by; reflexivity|apply occurs_by; reflexivity|reflexivity|left; reflexivity|constructor]. } all: try reflexivity. Unshelve. all: right; eexists; reflexivity.
Qed.
Lemma x_same : same_document x_tree1 x_tree2.
Proof.
  split; [|reflexivity]. unfold x_tree1, x_tree2, x_kids. cbn [app]. constructor.
  - right. split; [repeat constructor; cbn; intuition discriminate|]. apply (Permutation_app_comm [("xmlns", u16); ("k", u16)] [("version", "2")]).
  - intros I. exfalso. revert I. apply (fun H : ~ _ => H). cbn. intuition discriminate.
  - cbn. repeat constructor; left; reflexivity.
Qed.
Example C41_xml_nonvacuous : xdocument x_one x_tree1 /\ xdocument x_two x_tree2 /\ same_document x_tree1 x_tree2 /\
  xml_unmarshal xmlNamespaces x_one zero_BOM = xml_unmarshal xmlNamespaces x_two zero_BOM /\
  (exists c, xml_unmarshal xmlNamespaces x_two zero_BOM = Ok c /\ BOM_SpecVersion c = v1_6 /\ BOM_Version c = 2%Z /\ map Component_Name (ConvertSpec.members (BOM_Components c)) = ["a&b"]) /\
  xml_decode xmlNamespaces [More x_two; More "never read"] zero_BOM = Some (xml_unmarshal xmlNamespaces (x_two ++ "never read") zero_BOM).
Proof.
  repeat match goal with |- _ /\ _ => split end; [exact x_one_reads|exact x_two_reads|exact x_same|exact (C41_xml_layout _ _ _ _ _ _ x_one_reads x_two_reads x_same)| |vm_compute; reflexivity].
  eexists. split; [vm_compute; reflexivity|repeat split; reflexivity].
Qed.
(** What a BOM was encoded to, and another spelling of it *)
Example C41_xml_respelled_nonvacuous : exists s e, xml_encode_text false NewBOM = Ok s /\ bom_to_xml NewBOM = Ok [e] /\
  xdocument ("<bom version='1' xmlns='" ++ "http://cyclonedx.org/schema/bom/1.7" ++ "' />") (XElem "http://cyclonedx.org/schema/bom/1.7" "bom" [("version", "1"); ("xmlns", "http://cyclonedx.org/schema/bom/1.7")] []) /\
  same_document (xml_seen false e) (XElem "http://cyclonedx.org/schema/bom/1.7" "bom" [("version", "1"); ("xmlns", "http://cyclonedx.org/schema/bom/1.7")] []).
Proof.
  do 2 eexists. split; [vm_compute; reflexivity|]. split; [vm_compute; reflexivity|]. split.
  - eapply document_by. { eapply (xd "" _ _ ""); [constructor|]. eapply (xe_empty no_scope "bom" ("", "bom") _ [(("", "version"), "1"); (("", "xmlns"), "http://cyclonedx.org/schema/bom/1.7")] " "); [by_element| |apply white_by; reflexivity].
    eapply (as_more " " _ _ _ _); [apply white_by; reflexivity|discriminate|by_attr "version" "" "" "'"%char "1"|].
    eapply (as_more " " _ _ "" _); [apply white_by; reflexivity|discriminate|by_attr "xmlns" "" "" "'"%char "http://cyclonedx.org/schema/bom/1.7"|constructor]. } all: reflexivity.
  - split; [|reflexivity]. constructor; [|intros _; reflexivity|constructor].
    right. split; [repeat constructor; cbn; intuition discriminate|apply perm_swap].
Qed.
(** The bound: text counts where elements have text, and the order of elements counts. *)
Example C41_xml_bound : xml_unmarshal xmlNamespaces "<bom><components><component><name>a b</name></component></components></bom>" zero_BOM <>
    xml_unmarshal xmlNamespaces "<bom><components><component><name>ab</name></component></components></bom>" zero_BOM /\
  xml_unmarshal xmlNamespaces "<bom><components><component><name>a</name></component><component><name>b</name></component></components></bom>" zero_BOM <>
    xml_unmarshal xmlNamespaces "<bom><components><component><name>b</name></component><component><name>a</name></component></components></bom>" zero_BOM.
Proof. split; vm_compute; discriminate. Qed.

(** Name spaces are not respected: with a prefix instead of the default name space, the same
    elements in the same name spaces decode without a version (cyclonedx.go, line 119, reads
    the attribute xmlns and not the name space of the root). *)
Theorem C41_xml_prefix_refuted : exists s s' ns ks b b', xdocument s (XElem ns "bom" [("xmlns", ns)] ks) /\ xdocument s' (XElem ns "bom" [("k", ns)] ks) /\
  xml_unmarshal xmlNamespaces s zero_BOM = Ok b /\ xml_unmarshal xmlNamespaces s' zero_BOM = Ok b' /\ BOM_SpecVersion b = v1_6 /\ BOM_SpecVersion b' = 0%Z.
Proof.
  exists ("<bom xmlns='" ++ u16 ++ "'/>"), ("<k:bom xmlns:k='" ++ u16 ++ "'/>"), u16, []. do 2 eexists.
  split; [|split; [|split; [vm_compute; reflexivity|split; [vm_compute; reflexivity|split; reflexivity]]]].
  - eapply document_by. { eapply (xd "" _ _ ""); [constructor|]. eapply (xe_empty no_scope "bom" ("", "bom") _ [(("", "xmlns"), u16)] ""); [by_element| |constructor].
    eapply (as_more " " _ _ "" _); [apply white_by; reflexivity|discriminate|by_attr "xmlns" "" "" "'"%char u16|constructor]. } all: reflexivity.
  - eapply document_by. { eapply (xd "" _ _ ""); [constructor|]. eapply (xe_empty no_scope ("k" ++ ":" ++ "bom") ("k", "bom") _ [(("xmlns", "k"), u16)] ""); [by_element| |constructor].
    eapply (as_more " " _ _ "" _); [apply white_by; reflexivity|discriminate|by_attr ("xmlns" ++ ":" ++ "k") "" "" "'"%char u16|constructor]. } all: reflexivity.
Qed.
Definition xml_grammar_theorems := (C41_xml_reads, C41_xml_delivered, C41_xml_unambiguous, C41_xml_layout, C41_xml_written, C41_xml_respelled, C41_xml_prefix_refuted).
Print Assumptions xml_grammar_theorems.
