(** Property theorems for XML on bytes: C17, C19, C25, C26, C29, C30, C36, C37, C38.
    [xml_encode_text pretty b] are the bytes Encode writes, compact or indented,
    [xml_unmarshal entries s zero_BOM] decodes the bytes [s] into a fresh BOM, for the
    order [entries] in which Go visits the map of the name spaces. *)
From Verif Require Import Base Types Univ TypeTable Wt Reify ReifyFacts Consts LinkModel LinkProofs NumbersProofs Utf8 Utf8Proofs GobModel GobSpec GobProofs Version VersionProofs ConvertModel ConvertSpec ConvertPropProofs
  ExampleBom JsonModel JsonOut JsonText JsonTextProofs JsonIO JsonTextMore XmlModel XmlBack XmlTable XmlSpec XmlValues XmlProofs XmlRound XmlNeat XmlNs XmlTop XmlDeep XmlLossless XmlLossProofs XmlLossBom XmlDeps
  XmlText XmlTextProofs XmlWritten XmlTextMore XmlIO PropsJson PropsText PropsXml JsonSpec XmlOffence XmlChoices PropsXmlChoices.
From Coq Require Import Lia Permutation.
Local Open Scope string_scope.

(** Levels of elements in the document of a BOM. *)
Definition xml_levels (b : BOM) : N := match bom_to_xml b with Ok [e] => tall e | _ => 0%N end.
Lemma levels b e : bom_to_xml b = Ok [e] -> xml_levels b = tall e.
Proof. intros E. unfold xml_levels. rewrite E. reflexivity. Qed.
Lemma unmarshal_parsed entries s x b c : xml_parse s = Some x -> (xml_unmarshal entries s b = Ok c <-> bom_of_xml entries x b = Ok c).
Proof. intros P. unfold xml_unmarshal. rewrite P. destruct (bom_of_xml entries x b) as [d|e]; [split; congruence|split; discriminate]. Qed.
Lemma unmarshal_inv entries s b c : xml_unmarshal entries s b = Ok c -> exists x, xml_parse s = Some x /\ bom_of_xml entries x b = Ok c.
Proof. intros U. destruct (xml_parse s) as [x|] eqn:P; [|unfold xml_unmarshal in U; rewrite P in U; discriminate]. exists x. split; [reflexivity|]. apply (unmarshal_parsed _ _ _ _ _ P), U. Qed.

(** ** C37: the text is faithful *)

(** Of every tree of elements whose names are names without a prefix, whose attribute
    values and texts consist of characters that XML allows, and in which no element has
    both text and child elements: whatever the characters are, the text is read as the
    same tree, with white space added between elements if it is indented, and with the
    name space that is declared. Whatever follows the root element stays unread. *)
Theorem C37_tree : forall pretty x rest, is_elem x = true -> proper x ->
  xml_parse (xml_text pretty 0 x ++ rest) = Some (resolve "" (if pretty then indent 0 x else x)).
Proof. intros pretty x rest E P. unfold xml_parse. rewrite (parse_element pretty x rest E P) by (apply Nat.le_succ_diag_r). reflexivity. Qed.
(** Of every BOM that can be encoded: the header, one element, and it is read as the
    tree that was written. *)
Theorem C37_document : forall pretty b s, xml_encode_text pretty b = Ok s ->
  exists e, bom_to_xml b = Ok [e] /\ proper e /\ s = xml_header ++ xml_text pretty 0 e /\ xml_parse s = Some (xml_seen pretty e).
Proof.
  intros pretty b s E. destruct (document_parses pretty b s E) as (e & B & S & P). exists e. split; [exact B|]. split; [|auto].
  pose proof (bom_written b _ B) as W. apply Forall_inv in W as (_ & W). exact W.
Qed.
Theorem C37_encodes : forall pretty b, (exists s, xml_encode_text pretty b = Ok s) <-> exists els, bom_to_xml b = Ok els.
Proof. intros pretty b. unfold xml_encode_text. destruct (bom_to_xml b) as [els|e]; cbn [bind]; split; intros (x & X); try discriminate; eauto. Qed.
(** The text is valid UTF-8 whatever bytes the strings of the BOM hold. *)
Lemma utf8_clean s : utf8 (xml_clean s).
Proof.
  assert (G : forall n s, (String.length s <= n)%nat -> utf8 (xml_clean s)); [|exact (G _ s (le_n _))].
  induction n as [|n IH]; intros t L; [destruct t; [constructor|cbn in L; lia]|].
  assert (R : forall x, utf8 x -> utf8 (replacement ++ x)) by (intros; apply (utf8_3 _ _ _ _); [reflexivity|assumption]).
  destruct t as [|a s1]; [constructor|]. cbn [String.length] in L. cbn [xml_clean].
  destruct (one a) eqn:A; [destruct (xml_byte a); [apply utf8_1; [exact A|]|apply R]; apply IH; lia|].
  destruct s1 as [|b s2]; [exact (R "" utf8_nil)|]. cbn [String.length] in L. destruct (two a b) eqn:B; [apply utf8_2; [exact B|apply IH; lia]|].
  destruct s2 as [|c s3]; [apply R, IH; cbn; lia|]. cbn [String.length] in L. destruct (three a b c) eqn:C.
  { destruct (xml_three a b c); [apply utf8_3; [exact C|]|apply R]; apply IH; lia. }
  destruct s3 as [|d s4]; [apply R, IH; cbn; lia|]. cbn [String.length] in L. destruct (four a b c d) eqn:D; [apply utf8_4; [exact D|apply IH; lia]|]. apply R, IH. cbn. lia.
Qed.
Lemma utf8_legal s : legal s = true -> utf8 s.
Proof. unfold legal. intros E. apply String.eqb_eq in E. rewrite <- E. apply utf8_clean. Qed.
Lemma utf8_ascii s : str_all one s = true -> utf8 s.
Proof. induction s as [|a s IH]; [constructor|]. cbn [str_all]. intros H. apply andb_prop in H as (A & B). apply utf8_1; auto. Qed.
Lemma not_one_special a : special a = true -> one a = true.
Proof. unfold special, one. cbn [existsb]. rewrite !Bool.orb_true_iff, !N.eqb_eq. intros H. apply N.ltb_lt. intuition lia. Qed.
Lemma cont_plain c : cont c = true -> special c = false.
Proof. intros H. destruct (special c) eqn:S; [|reflexivity]. apply not_one_special in S. unfold one, cont, between in *. apply andb_prop in H as (H & _). apply N.leb_le in H. apply N.ltb_lt in S. lia. Qed.
Lemma big_plain lo hi c : (0x80 <= lo)%N -> between lo hi c = true -> special c = false.
Proof. intros L H. destruct (special c) eqn:S; [|reflexivity]. apply not_one_special in S. unfold one, between in *. apply andb_prop in H as (H & _). apply N.leb_le in H. apply N.ltb_lt in S. lia. Qed.
Ltac plain_bytes :=
  repeat match goal with
  | H : (_ && _)%bool = true |- _ => apply andb_prop in H as (? & ?)
  | H : (_ || _)%bool = true |- _ => apply Bool.orb_true_iff in H as [?|?]
  end;
  repeat match goal with
  | H : cont ?c = true |- context [xml_escape_byte ?c] => rewrite (escape_plain c (cont_plain c H))
  | H : between ?lo ?hi ?c = true |- context [xml_escape_byte ?c] => rewrite (escape_plain c (big_plain lo hi c ltac:(lia) H))
  end.
Lemma utf8_escape s : utf8 s -> utf8 (xml_escape s).
Proof.
  intros U. induction U as [|a s A U IH|a b s A U IH|a b c s A U IH|a b c d s A U IH]; cbn [xml_escape]; [constructor| | | |].
  - apply utf8_app; [|exact IH]. destruct (special a) eqn:S; [|rewrite (escape_plain a S); apply utf8_1; [exact A|constructor]].
    apply escape_special in S. remember (xml_escape_byte a) as e. clear - S. cbn in S. repeat (destruct S as [S|S]; [injection S as <- <-; apply utf8_ascii; reflexivity|]). destruct S.
  - assert (Q : xml_escape_byte a ++ xml_escape_byte b ++ xml_escape s = String a (String b (xml_escape s))) by (unfold two in A; plain_bytes; reflexivity). rewrite Q. apply utf8_2; assumption.
  - assert (Q : xml_escape_byte a ++ xml_escape_byte b ++ xml_escape_byte c ++ xml_escape s = String a (String b (String c (xml_escape s)))) by (unfold three in A; plain_bytes; reflexivity).
    rewrite Q. apply utf8_3; assumption.
  - assert (Q : xml_escape_byte a ++ xml_escape_byte b ++ xml_escape_byte c ++ xml_escape_byte d ++ xml_escape s = String a (String b (String c (String d (xml_escape s)))))
      by (unfold four in A; plain_bytes; reflexivity).
    rewrite Q. apply utf8_4; assumption.
Qed.
Lemma utf8_name l : name_ok l = true -> utf8 l.
Proof.
  unfold name_ok. intros H. apply andb_prop in H as (H & _). apply utf8_ascii. apply (str_all_weaken name_byte); [|apply name_bytes, H].
  intros a A. destruct a as [[] [] [] [] [] [] [] []]; try reflexivity; discriminate A.
Qed.
Lemma utf8_concat {A} (f : A -> string) l : (forall x, In x l -> utf8 (f x)) -> utf8 (concat_map f l).
Proof. induction l as [|x l IH]; intros H; [constructor|]. cbn [concat_map]. apply utf8_app; [apply H; left; reflexivity|]. apply IH. intros y Y. apply H. right. exact Y. Qed.
Lemma utf8_blanks n : utf8 (blanks n).
Proof. induction n as [|n IH]; [constructor|]. cbn [blanks append]. apply utf8_1; [reflexivity|]. apply utf8_1; [reflexivity|exact IH]. Qed.
Lemma utf8_line n : utf8 (line n).
Proof. apply utf8_1; [reflexivity|apply utf8_blanks]. Qed.
Lemma utf8_text pretty x : proper x -> forall depth, utf8 (xml_text pretty depth x).
Proof.
  induction x as [s|sp l a ks IH] using xml_induction; intros P depth; [apply utf8_escape, utf8_legal, P|]. destruct P as (N & _ & A & _ & P). cbn [xml_text].
  apply list_all_Forall in P. rewrite Forall_forall in P, IH.
  apply utf8_app; [|apply utf8_app].
  - unfold start_text. apply utf8_1; [reflexivity|]. apply utf8_app; [apply utf8_name, N|]. apply utf8_app; [|apply utf8_1; [reflexivity|constructor]].
    apply utf8_concat. intros (n & v) I. rewrite Forall_forall in A. destruct (A _ I) as (A1 & A2). unfold attr_text. cbn [fst snd] in *. apply utf8_1; [reflexivity|].
    apply utf8_app; [apply utf8_name, A1|]. apply utf8_1; [reflexivity|]. apply utf8_1; [reflexivity|]. apply utf8_app; [apply utf8_escape, utf8_legal, A2|]. apply utf8_1; [reflexivity|constructor].
  - destruct (_ && _)%bool; [|apply utf8_concat; intros k I; apply IH; auto]. apply utf8_app; [|apply utf8_line]. apply utf8_concat. intros k I.
    destruct k as [s|sp' l' a' ks'] eqn:K; [apply utf8_escape, utf8_legal; exact (proj2 (P _ I))|]. apply utf8_app; [apply utf8_line|]. rewrite <- K in *. apply IH; auto.
  - unfold end_text. apply utf8_1; [reflexivity|]. apply utf8_1; [reflexivity|]. apply utf8_app; [apply utf8_name, N|]. apply utf8_1; [reflexivity|constructor].
Qed.
Theorem C37_utf8 : forall pretty b s, xml_encode_text pretty b = Ok s -> utf8 s.
Proof. intros pretty b s E. destruct (C37_document pretty b s E) as (e & _ & P & -> & _). apply utf8_app; [apply utf8_ascii; reflexivity|apply utf8_text, P]. Qed.

Definition tricky : string := "<a b='c'>&amp;]]> " ++ String quote_mark (String "013" (String "010" (String "009" (String "001" (String "255" "-->"))))).
Definition b_tricky : BOM := set_BOM_SerialNumber tricky (set_BOM_Components (list_of [set_Component_Name tricky (set_Component_Type "library" zero_Component)]) NewBOM).
Definition xml_shown (pretty : bool) (b : BOM) : string := match xml_encode_text pretty b with Ok s => s | Err _ => "" end.
Example C37_nonvacuous : exists c, xml_encode_text true b_tricky = Ok (xml_shown true b_tricky) /\ xml_unmarshal xmlNamespaces (xml_shown true b_tricky) zero_BOM = Ok c /\
  map Component_Name (members (BOM_Components c)) = [xml_clean tricky] /\ BOM_SerialNumber c = xml_clean tricky /\
  xml_clean tricky = "<a b='c'>&amp;]]> " ++ String quote_mark (String "013" (String "010" (String "009" (replacement ++ replacement ++ "-->")))).
Proof. eexists. split; [vm_compute; reflexivity|]. split; [vm_compute; reflexivity|]. repeat split; vm_compute; reflexivity. Qed.

(** ** C17, C30, C36 on bytes *)

(** Any BOM that encodes decodes to what [xml_back] says, or encoding/xml refuses it because
    it is nested too deeply. *)
Theorem C17_text_any_depth : forall b pretty s entries, bom_sane b -> xml_encode_text pretty b = Ok s -> Permutation entries xmlNamespaces ->
  xml_unmarshal entries s zero_BOM = Ok (xml_back b) \/ xml_unmarshal entries s zero_BOM = Err (XTree XDepth).
Proof.
  intros b pretty s entries S E P. destruct (C37_document pretty b s E) as (e & B & _ & _ & X). destruct (C17_any_depth b [e] S B) as (e' & [= <-] & D).
  unfold xml_unmarshal. rewrite X. destruct (D pretty entries P) as [D'|D']; rewrite D'; [left|right]; reflexivity.
Qed.
Theorem C17_text_decoded : forall b pretty s entries c, bom_sane b -> xml_encode_text pretty b = Ok s -> Permutation entries xmlNamespaces ->
  xml_unmarshal entries s zero_BOM = Ok c -> c = xml_back b /\ (c = xml_view b <-> xml_lossless b).
Proof.
  intros b pretty s entries c S E P U. destruct (C37_document pretty b s E) as (e & B & _ & _ & X). apply (unmarshal_parsed _ _ _ _ _ X) in U. exact (C17_decoded b e pretty entries c S B P U).
Qed.
Theorem C17_text_decodes_partial : forall b pretty s entries, bom_sane b -> xml_encode_text pretty b = Ok s -> (xml_levels b <= 5000)%N -> Permutation entries xmlNamespaces ->
  xml_unmarshal entries s zero_BOM = Ok (xml_back b).
Proof.
  intros b pretty s entries S E T P. destruct (C37_document pretty b s E) as (e & B & _ & _ & X). rewrite (levels b e B) in T. destruct (C17_decodes_partial b [e] S B) as (e' & [= <-] & D).
  apply (unmarshal_parsed _ _ _ _ _ X). apply D; assumption.
Qed.
Theorem C17_text_round_trip_partial : forall b pretty s entries, bom_sane b -> xml_encode_text pretty b = Ok s -> (xml_levels b <= 5000)%N -> Permutation entries xmlNamespaces ->
  (xml_unmarshal entries s zero_BOM = Ok (xml_view b) <-> xml_lossless b).
Proof.
  intros b pretty s entries S E T P. destruct (C37_document pretty b s E) as (e & B & _ & _ & X). rewrite (levels b e B) in T. rewrite (unmarshal_parsed _ _ _ _ _ X). apply (C17_round_trip_partial b e S B T pretty entries P).
Qed.
Example C17_text_nonvacuous : bom_sane ex_xml /\ xml_encode_text true ex_xml = Ok (xml_shown true ex_xml) /\ (xml_levels ex_xml <= 5000)%N /\
  xml_unmarshal (rev xmlNamespaces) (xml_shown true ex_xml) zero_BOM = Ok (xml_view ex_xml).
Proof. split; [vm_compute; repeat split|]. split; [vm_compute; reflexivity|]. split; [vm_compute; discriminate|]. vm_compute. reflexivity. Qed.
Theorem C17_text_deep_refuted : forall n entries, (4999 <= N.of_nat n)%N -> bom_sane (b_nest n) /\
  exists s, xml_encode_text false (b_nest n) = Ok s /\ xml_unmarshal entries s zero_BOM = Err (XTree XDepth).
Proof.
  intros n entries D. destruct (C17_deep_refuted n entries D) as (S & e & E & B). split; [exact S|]. eexists. split; [unfold xml_encode_text; rewrite E; cbn [bind]; reflexivity|].
  match goal with |- xml_unmarshal _ ?s _ = _ => destruct (C37_document false (b_nest n) s) as (e' & E' & _ & _ & X) end; [unfold xml_encode_text; rewrite E; reflexivity|].
  rewrite E in E'. apply (ok_iff xerr (list xml)) in E'. injection E' as <-. unfold xml_unmarshal. rewrite X, B. reflexivity.
Qed.
Theorem C30_text : forall b pretty s entries c, bom_sane b -> xml_encode_text pretty b = Ok s -> Permutation entries xmlNamespaces ->
  xml_unmarshal entries s zero_BOM = Ok c -> BOM_Dependencies c = present (map dependency_back (members (BOM_Dependencies b))).
Proof.
  intros b pretty s entries c S E P U. destruct (C37_document pretty b s E) as (e & B & _ & _ & X). apply (unmarshal_parsed _ _ _ _ _ X) in U.
  exact (C30_dependencies b e pretty entries c S B P U).
Qed.
(** /repo/encode.go:113-120 *)
Definition xml_encode_version_text (pretty : bool) (sv : SpecVersion) (b : BOM) : result string (result xerr string) :=
  bind (copyAndConvert sv b) (fun c => Ok (xml_encode_text pretty c)).
Lemma encode_version_text pretty sv b c : copy b = Ok c -> xml_encode_version_text pretty sv b = Ok (xml_encode_text pretty (convert sv c)).
Proof. intros C. unfold xml_encode_version_text, copyAndConvert. rewrite C. reflexivity. Qed.
Theorem C36_text : forall pretty sv b c s entries d, copy b = Ok c -> xml_encode_version_text pretty sv b = Ok (Ok s) -> bom_sane (convert sv c) -> Permutation entries xmlNamespaces ->
  xml_unmarshal entries s zero_BOM = Ok d ->
  (d = xml_view (convert sv c) <-> xml_lossless (convert sv c)) /\ (is_version sv = true -> BOM_SpecVersion d = sv /\ BOM_XMLNS d = namespace_of sv).
Proof.
  intros pretty sv b c s entries d C E S P U. rewrite (encode_version_text pretty sv b c C) in E. apply (ok_iff string (result xerr string)) in E.
  destruct (C17_text_decoded _ pretty s entries d S E P U) as (Q & L). split; [exact L|]. intros V. destruct (unmarshal_inv _ _ _ _ U) as (x & _ & D). exact (version_back sv c d entries x V P Q D).
Qed.
Theorem C36_text_partial : forall pretty sv b c s entries, copy b = Ok c -> xml_encode_version_text pretty sv b = Ok (Ok s) -> bom_sane (convert sv c) -> (xml_levels (convert sv c) <= 5000)%N ->
  Permutation entries xmlNamespaces ->
  (xml_unmarshal entries s zero_BOM = Ok (xml_view (convert sv c)) <-> xml_lossless (convert sv c)) /\
  (is_version sv = true -> exists d, xml_unmarshal entries s zero_BOM = Ok d /\ BOM_SpecVersion d = sv /\ BOM_XMLNS d = namespace_of sv).
Proof.
  intros pretty sv b c s entries C E S T P. rewrite (encode_version_text pretty sv b c C) in E. apply (ok_iff string (result xerr string)) in E.
  split; [exact (C17_text_round_trip_partial _ pretty s entries S E T P)|]. intros V. destruct (C37_document pretty _ s E) as (e & B & _ & _ & X). rewrite (levels _ e B) in T.
  assert (E' : xml_encode_version sv b = Ok (Ok [e])).
  { destruct (C15_xml_encode_version sv b) as (c' & C' & E'). rewrite C in C'. apply (ok_iff string BOM) in C'. subst c'. rewrite B in E'. exact E'. }
  destruct (C36_encode_version_partial sv b e c E' C S T pretty entries P) as (_ & F). destruct (F V) as (d & D & D1 & D2). exists d.
  split; [exact (proj2 (unmarshal_parsed entries s _ zero_BOM d X) D)|]. split; assumption.
Qed.
Example C36_text_nonvacuous : exists c s, copy b_tree = Ok c /\ xml_encode_version_text true v1_3 b_tree = Ok (Ok s) /\ bom_sane (convert v1_3 c) /\ (xml_levels (convert v1_3 c) <= 5000)%N /\
  xml_unmarshal xmlNamespaces s zero_BOM = Ok (xml_view (convert v1_3 c)).
Proof. eexists _, _. split; [vm_compute; reflexivity|]. split; [vm_compute; reflexivity|]. split; [vm_compute; repeat split|]. split; [vm_compute; discriminate|]. vm_compute. reflexivity. Qed.

(** ** C19, C25: whatever bytes are decoded *)

Theorem C19_text : forall entries s b c, Permutation entries xmlNamespaces -> xml_unmarshal entries s b = Ok c ->
  exists sp attrs kids, xml_parse s = Some (XElem sp "bom" attrs kids) /\ BOM_XMLNS c = xmlns_of attrs (BOM_XMLNS b) /\
    (forall v, is_version v = true -> BOM_XMLNS c = namespace_of v -> BOM_SpecVersion c = v) /\
    ((forall v, is_version v = true -> BOM_XMLNS c <> namespace_of v) -> BOM_SpecVersion c = BOM_SpecVersion b).
Proof.
  intros entries s b c P U. apply unmarshal_inv in U as (x & X & D). destruct (C19_decoded entries x b c P D) as (sp & a & ks & -> & H). exists sp, a, ks. split; [exact X|exact H].
Qed.
Example C19_text_nonvacuous : exists c, xml_unmarshal xmlNamespaces ("<?xml version='1.0'?><!-- c --><!DOCTYPE bom [<!ENTITY a '>'>]> <x:bom a='b' xmlns='http://cyclonedx.org/schema/bom/1.4' xmlns:x='u' /> <rest") zero_BOM = Ok c /\
  BOM_SpecVersion c = v1_4 /\ BOM_XMLName c = mkXMLName "u" "bom".
Proof. eexists. split; [vm_compute; reflexivity|]. split; reflexivity. Qed.
Theorem C25_xml_text : forall entries s c, xml_unmarshal entries s zero_BOM = Ok c ->
  (forall x, inside (TRef "BOM") (reify_BOM c) (TRef "ToolsChoice") (reify_ToolsChoice x) ->
     ToolsChoice_Tools x = None \/ (ToolsChoice_Components x = None /\ ToolsChoice_Services x = None)) /\
  (forall x, inside (TRef "BOM") (reify_BOM c) (TRef "EvidenceIdentityChoice") (reify_EvidenceIdentityChoice x) ->
     EvidenceIdentityChoice_Identity x = None \/ EvidenceIdentityChoice_Identities x = None) /\
  (forall x, inside (TRef "BOM") (reify_BOM c) (TRef "CertificateState") (reify_CertificateState x) ->
     CertificateState_Predefined x = None \/ CertificateState_Custom x = None) /\
  (forall x, inside (TRef "BOM") (reify_BOM c) (TRef "CertificateExtension") (reify_CertificateExtension x) ->
     CertificateExtension_Common x = None \/ CertificateExtension_Custom x = None) /\
  (forall x, inside (TRef "BOM") (reify_BOM c) (TRef "PatentChoice") (reify_PatentChoice x) ->
     PatentChoice_Patent x = None \/ PatentChoice_PatentFamily x = None) /\
  (forall x, inside (TRef "BOM") (reify_BOM c) (TRef "MLDatasetChoice") (reify_MLDatasetChoice x) ->
     MLDatasetChoice_Ref x = "" \/ MLDatasetChoice_ComponentData x = None) /\
  (forall x, inside (TRef "BOM") (reify_BOM c) (TRef "EnvironmentVariableChoice") (reify_EnvironmentVariableChoice x) ->
     EnvironmentVariableChoice_Property x = None \/ EnvironmentVariableChoice_Value x = "") /\
  (forall x, inside (TRef "BOM") (reify_BOM c) (TRef "LicenseChoice") (reify_LicenseChoice x) ->
     LicenseChoice_License x = None \/ LicenseChoice_Expression x = "").
Proof. intros entries s c U. apply unmarshal_inv in U as (x & _ & D). exact (C25_xml entries x c D). Qed.

(** ** C26: options *)

Lemma session_pretty calls : forall x, (forall p env, ~ In (SetPretty p, env) calls) -> fst (xml_session x calls) = x.
Proof.
  induction calls as [|[c env] calls IH]; intros x N; [reflexivity|]. cbn [xml_session].
  assert (N' : forall p e, ~ In (SetPretty p, e) calls) by (intros p e I; apply (N p e); right; exact I).
  assert (G : forall out err, fst (let (x2, rest) := xml_session x calls in (x2, (out, err) :: rest)) = x).
  { intros out err. specialize (IH x N'). destruct (xml_session x calls). exact IH. }
  destruct c as [p|e|b|b sv]; cbn [xml_call].
  - exfalso. apply (N p env). left. reflexivity.
  - apply G.
  - destruct (xml_encode_to _ _). apply G.
  - destruct (copyAndConvert sv b) as [c|e]; [destruct (xml_encode_to _ _)|]; apply G.
Qed.
Lemma xml_session_app calls : forall x calls', xml_session x (calls ++ calls') =
  (let (x1, r1) := xml_session x calls in let (x2, r2) := xml_session x1 calls' in (x2, r1 ++ r2)%list).
Proof.
  induction calls as [|[c w] calls IH]; intros x calls'; cbn [app xml_session].
  - destruct (xml_session x calls'). reflexivity.
  - destruct (xml_call w x c) as [[x1 out] err]. rewrite IH. destruct (xml_session x1 calls) as [x2 r2]. destruct (xml_session x2 calls'). reflexivity.
Qed.
(** The last call of SetPretty decides, without one the document is compact. *)
Theorem C26_xml_pretty : forall before after v env, (forall p e, ~ In (SetPretty p, e) after) ->
  xe_pretty (fst (xml_session new_xml_encoder (before ++ (SetPretty v, env) :: after))) = v.
Proof.
  intros before after v env N. rewrite xml_session_app. destruct (xml_session new_xml_encoder before) as [x1 r1]. cbn [xml_session xml_call].
  pose proof (session_pretty after (mkXmlEncoder v) N) as H. destruct (xml_session (mkXmlEncoder v) after) as [x2 r2]. cbn [fst] in *. rewrite H. reflexivity.
Qed.
Theorem C26_xml_default : forall calls, (forall p e, ~ In (SetPretty p, e) calls) -> xe_pretty (fst (xml_session new_xml_encoder calls)) = false.
Proof. intros calls N. rewrite session_pretty by exact N. reflexivity. Qed.
(** SetEscapeHTML changes nothing, wherever it is called. *)
Theorem C26_xml_escape_noop : forall before after e env x, exists r1 r2 x',
  xml_session x (before ++ after) = (x', r1 ++ r2)%list /\ xml_session x (before ++ (SetEscapeHTML e, env) :: after) = (x', r1 ++ ([], None) :: r2)%list /\ length r1 = length before.
Proof.
  intros before after e env x. rewrite !xml_session_app. destruct (xml_session x before) as [x1 r1] eqn:B. cbn [xml_session xml_call]. destruct (xml_session x1 after) as [x2 r2].
  exists r1, r2, x2. split; [reflexivity|]. split; [reflexivity|]. revert x r1 B. induction before as [|[c w] before IH]; intros x r1 B; cbn [xml_session] in B; [injection B as <- <-; reflexivity|].
  destruct (xml_call w x c) as [[y out] err]. destruct (xml_session y before) as [z r] eqn:Z. injection B as <- <-. cbn [length]. rewrite (IH y r Z). reflexivity.
Qed.
(** After any history, Encode writes the document for the layout in force. *)
Theorem C26_xml_encode : forall calls b env x outs, xml_session new_xml_encoder calls = (x, outs) ->
  xml_session new_xml_encoder (calls ++ [(Encode b, env)]) = (x, (outs ++ [xml_encode_to env (xml_element_text (xe_pretty x) b)])%list).
Proof. intros calls b env x outs E. rewrite xml_session_app, E. cbn [xml_session xml_call]. destruct (xml_encode_to env _) as [out err]. reflexivity. Qed.
(** Documents of one BOM in both layouts are decoded alike. *)
Theorem C26_xml_same_bom : forall p1 p2 b s1 s2 entries c1 c2, bom_sane b -> xml_encode_text p1 b = Ok s1 -> xml_encode_text p2 b = Ok s2 -> Permutation entries xmlNamespaces ->
  xml_unmarshal entries s1 zero_BOM = Ok c1 -> xml_unmarshal entries s2 zero_BOM = Ok c2 -> c1 = c2.
Proof.
  intros p1 p2 b s1 s2 entries c1 c2 S E1 E2 P U1 U2. destruct (C17_text_decoded b p1 s1 entries c1 S E1 P U1) as (Q1 & _), (C17_text_decoded b p2 s2 entries c2 S E2 P U2) as (Q2 & _). rewrite Q1, Q2. reflexivity.
Qed.
Theorem C26_xml_same_bom_partial : forall p1 p2 b s1 s2 entries, bom_sane b -> xml_encode_text p1 b = Ok s1 -> xml_encode_text p2 b = Ok s2 -> (xml_levels b <= 5000)%N -> Permutation entries xmlNamespaces ->
  xml_unmarshal entries s1 zero_BOM = xml_unmarshal entries s2 zero_BOM.
Proof. intros p1 p2 b s1 s2 entries S E1 E2 T P. rewrite (C17_text_decodes_partial b p1 s1 entries S E1 T P), (C17_text_decodes_partial b p2 s2 entries S E2 T P). reflexivity. Qed.
(** Whether a BOM can be encoded does not depend on the layout. *)
Theorem C26_xml_same_failure : forall p1 p2 b e, xml_encode_text p1 b = Err e -> xml_encode_text p2 b = Err e.
Proof. intros p1 p2 b e. unfold xml_encode_text. destruct (bom_to_xml b); [discriminate|]. exact (fun H => H). Qed.
Example C26_xml_nonvacuous : xml_shown false ex_xml <> xml_shown true ex_xml /\
  xml_unmarshal xmlNamespaces (xml_shown false ex_xml) zero_BOM = xml_unmarshal xmlNamespaces (xml_shown true ex_xml) zero_BOM.
Proof. split; [vm_compute; discriminate|vm_compute; reflexivity]. Qed.

(** ** C29: writing *)

Lemma element_text pretty b : xml_encode_text pretty b = bind (xml_element_text pretty b) (fun t => Ok (xml_header ++ t)).
Proof. unfold xml_encode_text, xml_element_text. destruct (bom_to_xml b); reflexivity. Qed.
Lemma whole_app a b : whole (a ++ b)%list = whole a ++ whole b.
Proof. induction a as [|x a IH]; [reflexivity|]. cbn [app whole fold_right] in *. unfold whole in *. rewrite IH, app_assoc_s. reflexivity. Qed.
Lemma write_all_spec w l : (forall n, honest (w n)) -> forall n out err, write_all w n l = (out, err) ->
  (exists rest, whole l = whole out ++ rest) /\ (err = None -> out = l) /\ (forall e, err = Some e -> exists m p, (n <= m)%nat /\ In p l /\ write_error (w m p) = Some e).
Proof.
  intros H. induction l as [|p l IH]; intros n out err E; cbn [write_all] in E.
  - injection E as <- <-. split; [exists ""; reflexivity|]. split; [reflexivity|discriminate].
  - destruct (write_error (w n p)) as [e|] eqn:W.
    + injection E as <- <-. split; [|split; [discriminate|]].
      * destruct (proj2 (H n p)) as (rest & R). exists (rest ++ whole l). cbn [whole fold_right]. rewrite R at 1. rewrite app_assoc_s. cbn. rewrite append_nil_r. reflexivity.
      * intros e' [= <-]. exists n, p. split; [lia|]. split; [left; reflexivity|exact W].
    + destruct (write_all w (S n) l) as [o er] eqn:R. injection E as <- <-. destruct (IH (S n) o er R) as ((rest & A) & B & C). pose proof (proj1 (H n p) W) as Q. rewrite Q. split; [|split].
      * exists rest. cbn [whole fold_right] in *. unfold whole in A. rewrite A, app_assoc_s. reflexivity.
      * intros Z. rewrite (B Z). reflexivity.
      * intros e Z. destruct (C e Z) as (m & q & M & I & G). exists m, q. split; [lia|]. split; [right; exact I|exact G].
Qed.
(** Encode returns no error only if the BOM can be encoded and the writer took the whole
    document: the header and the element. *)
Theorem C29_xml_nil : forall pretty b env out, fair env -> xml_encode_to env (xml_element_text pretty b) = (out, None) ->
  exists s, xml_encode_text pretty b = Ok s /\ whole out = s.
Proof.
  intros pretty b env out (H & C) E. rewrite element_text. unfold xml_encode_to in E. destruct (write_error _) eqn:W; [discriminate|]. pose proof (proj1 (H 0%nat xml_header) W) as Q. rewrite Q in E.
  destruct (xml_element_text pretty b) as [t|e].
  - destruct (write_all _ _ _) as [o er] eqn:R. destruct er; [discriminate|]. assert (Z : out = xml_header :: o) by congruence. destruct (write_all_spec _ _ H _ _ _ R) as (_ & B & _).
    exists (xml_header ++ t). split; [reflexivity|]. rewrite Z, (B eq_refl). cbn [whole fold_right]. f_equal. apply C.
  - destruct (write_all _ _ _) as [o [er|]]; discriminate.
Qed.
(** What has been written starts with the header, or is a part of it and the writer
    failed. *)
Theorem C29_xml_header : forall r env out err, fair env -> xml_encode_to env r = (out, err) ->
  (exists rest, whole out = xml_header ++ rest) \/ (exists rest e, xml_header = whole out ++ rest /\ err = Some (XWrite e)).
Proof.
  intros r env out err (H & C) E. unfold xml_encode_to in E. destruct (write_error _) as [e|] eqn:W.
  - right. destruct (proj2 (H 0%nat xml_header)) as (rest & R). exists rest, e. assert (Z : out = [accepted (behaves env 0 xml_header)]) by congruence. split; [|congruence].
    rewrite Z. cbn [whole fold_right]. rewrite append_nil_r. exact R.
  - left. rewrite (proj1 (H 0%nat xml_header) W) in E. destruct (write_all _ _ _) as [o er]. exists (whole o). assert (Z : out = xml_header :: o) by congruence. rewrite Z. reflexivity.
Qed.
(** Whatever happens, what has been written of a BOM that can be encoded is a prefix of
    its document. *)
Theorem C29_xml_prefix : forall pretty b s env out err, fair env -> xml_encode_text pretty b = Ok s -> xml_encode_to env (xml_element_text pretty b) = (out, err) ->
  exists rest, s = whole out ++ rest.
Proof.
  intros pretty b s env out err (H & C) T E. rewrite element_text in T. destruct (xml_element_text pretty b) as [t|]; [|discriminate]. cbn [bind] in T. assert (Ts : s = xml_header ++ t) by congruence.
  unfold xml_encode_to in E. destruct (write_error _) as [e|] eqn:W.
  - destruct (proj2 (H 0%nat xml_header)) as (rest & R). exists (rest ++ t). assert (Z : out = [accepted (behaves env 0 xml_header)]) by congruence. rewrite Ts, R, Z at 1. rewrite app_assoc_s.
    cbn [whole fold_right]. rewrite append_nil_r. reflexivity.
  - rewrite (proj1 (H 0%nat xml_header) W) in E. destruct (write_all _ _ _) as [o er] eqn:R. destruct (write_all_spec _ _ H _ _ _ R) as ((rest & A) & _). exists rest.
    assert (Z : out = xml_header :: o) by congruence. rewrite Ts, Z, <- (C t), A. change (whole (xml_header :: o)) with (xml_header ++ whole o). rewrite app_assoc_s. reflexivity.
Qed.
(** If the BOM cannot be encoded, Encode returns that error or one of the writer. *)
Theorem C29_xml_unencodable : forall r e env out err, r = Err e -> xml_encode_to env r = (out, err) -> err = Some (XEncode e) \/ exists e', err = Some (XWrite e').
Proof.
  intros r e env out err -> E. unfold xml_encode_to in E. destruct (write_error _) as [e'|]; [right; exists e'; congruence|]. destruct (write_all _ _ _) as [o [e'|]]; [right; exists e'|left]; congruence.
Qed.
(** An error of the writer is what Encode returns; conversely such an error comes from a
    call of Write, and any other outcome means that the writer took all it was given. *)
Theorem C29_xml_write_error : forall r env out err, fair env -> xml_encode_to env r = (out, err) ->
  match err with
  | Some (XWrite e) => exists n p, write_error (behaves env n p) = Some e
  | _ => whole out = xml_header ++ match r with Ok t => t | Err _ => whole (begun env) end
  end.
Proof.
  intros r env out err (H & C) E. unfold xml_encode_to in E. destruct (write_error _) as [e|] eqn:W.
  - assert (Z : err = Some (XWrite e)) by congruence. rewrite Z. exists 0%nat, xml_header. exact W.
  - rewrite (proj1 (H 0%nat xml_header) W) in E. destruct (write_all _ _ _) as [o er] eqn:R. destruct (write_all_spec _ _ H _ _ _ R) as (_ & B & D).
    assert (Z : out = xml_header :: o) by congruence. destruct er as [e|].
    + assert (Y : err = Some (XWrite e)) by congruence. rewrite Y. destruct (D e eq_refl) as (m & p & _ & _ & G). eauto.
    + rewrite Z, (B eq_refl). destruct r as [t|e].
      * assert (Y : err = None) by congruence. rewrite Y. change (whole (xml_header :: cuts env t)) with (xml_header ++ whole (cuts env t)). rewrite C. reflexivity.
      * assert (Y : err = Some (XEncode e)) by congruence. rewrite Y. reflexivity.
Qed.
(** Not so, unlike in JSON: that nothing is written of a BOM that cannot be encoded. The
    header is there, and whatever encoding/xml had in its buffer. *)
Definition b_both : BOM := set_BOM_Metadata (Some (set_Metadata_Tools (Some (mkToolsChoice (list_of [zero_Tool]) (list_of [zero_Component]) None)) zero_Metadata)) NewBOM.
Definition good_writer : nat -> writer := fun _ p => mkWriteResult p None.
Theorem C29_xml_nothing_refuted : exists b env out e, fair env /\ xml_encode_to env (xml_element_text false b) = (out, Some (XEncode e)) /\ whole out = xml_header /\ bom_to_xml b = Err e.
Proof.
  exists b_both, (mkSurroundings good_writer (fun s => [s]) []), [xml_header], XBoth. split; [|split; [vm_compute; reflexivity|split; vm_compute; reflexivity]].
  split; [intros n p; split; [reflexivity|exists ""; cbn; rewrite append_nil_r; reflexivity]|]. intros t. cbn. apply append_nil_r.
Qed.
(** A writer that takes three bytes and fails in its third call. *)
Definition full_at (n : nat) : nat -> writer := fun k p => if Nat.eqb k n then mkWriteResult (substring 0 3 p) (Some "full") else mkWriteResult p None.
Definition halves (s : string) : list string := let n := Nat.div2 (String.length s) in [substring 0 n s; substring n (String.length s - n) s].
Example C29_xml_nonvacuous : exists out, xml_encode_to (mkSurroundings (full_at 2) halves []) (xml_element_text true b_tricky) = (out, Some (XWrite "full")) /\ length out = 3%nat /\ nth 0 out "" = xml_header /\ (3 < String.length (nth 1 out ""))%nat.
Proof. eexists. split; [vm_compute; reflexivity|]. split; [reflexivity|]. split; [reflexivity|]. vm_compute. lia. Qed.

(** ** C38: decoding reads one root element *)

(** Whatever follows the root element changes nothing. *)
Theorem C38_rest : forall entries s rest b, xml_parse s <> None -> xml_unmarshal entries (s ++ rest) b = xml_unmarshal entries s b.
Proof. intros entries s rest b N. destruct (xml_parse s) as [x|] eqn:P; [|congruence]. unfold xml_unmarshal. rewrite P, (parse_ext rest s x P). reflexivity. Qed.
Theorem C38_rest_decoded : forall entries s rest b c, xml_unmarshal entries s b = Ok c -> xml_unmarshal entries (s ++ rest) b = Ok c.
Proof. intros entries s rest b c U. rewrite C38_rest; [exact U|]. destruct (unmarshal_inv _ _ _ _ U) as (x & P & _). congruence. Qed.

(** No part of a document that lacks its end is decoded: not one byte can be missing. *)
Theorem C38_truncated : forall pretty b s p q entries b0, xml_encode_text pretty b = Ok s -> s = p ++ q -> q <> "" -> xml_unmarshal entries p b0 = Err XSyntax.
Proof.
  intros pretty b s p q entries b0 E Q N. pose proof (document_build pretty b s E) as B. unfold xml_unmarshal, xml_parse.
  destruct (build (S (String.length p)) p []) as [(x & r)|] eqn:P; [|reflexivity]. exfalso. apply (build_ext q) with (k := String.length q) in P.
  rewrite <- Q in P. replace (S (String.length p) + String.length q)%nat with (S (String.length s)) in P by (rewrite Q, length_app_s; reflexivity).
  destruct B as (y & B). rewrite B in P. assert (R : "" = r ++ q) by congruence. destruct r; [cbn in R; congruence|discriminate].
Qed.

(** The same on readers: however the bytes are cut into pieces, whatever is delivered
    after the root element, even an error, does not matter once a result is there. *)
Lemma delivered_more ds : forall s, delivered ds = (s, false) -> forall ds', exists t e, delivered (ds ++ ds') = (s ++ t, e).
Proof.
  induction ds as [|[p|p|p x] ds IH]; intros s D ds'; cbn [app delivered] in *; try discriminate.
  - injection D as <-. destruct (delivered ds') as (t & e). exists t, e. reflexivity.
  - destruct (delivered ds) as (s1 & e1). injection D as <- ->. destruct (IH s1 eq_refl ds') as (t & e & ->). exists t, e. rewrite app_assoc_s. reflexivity.
Qed.
Lemma delivered_end ds : forall s, delivered ds = (s, true) -> forall ds', delivered (ds ++ ds') = (s, true).
Proof.
  induction ds as [|[p|p|p x] ds IH]; intros s D ds'; cbn [app delivered] in *; try discriminate; try exact D.
  destruct (delivered ds) as (s1 & e1). injection D as <- ->. rewrite (IH s1 eq_refl ds'). reflexivity.
Qed.
Theorem C38_settled : forall entries ds ds' b r, xml_decode entries ds b = Some r -> xml_decode entries (ds ++ ds') b = Some r.
Proof.
  intros entries ds ds' b r. unfold xml_decode. destruct (delivered ds) as (s & [|]) eqn:D; [rewrite (delivered_end ds s D); exact (fun H => H)|].
  destruct (xml_parse s) as [x|] eqn:P; [|discriminate]. intros H. destruct (delivered_more ds s D ds') as (t & e & ->). rewrite (parse_ext t s x P), C38_rest by congruence. exact H.
Qed.
Lemma delivered_pieces l d : delivered (map More l ++ [d]) = (whole l ++ match d with More p | Last p | Broken p _ => p end, match d with More _ => false | _ => true end).
Proof. induction l as [|p l IH]; [destruct d; cbn; rewrite ?append_nil_r; reflexivity|]. cbn [map app delivered]. rewrite IH. change (whole (p :: l)) with (p ++ whole l). rewrite app_assoc_s. reflexivity. Qed.
(** All the bytes in pieces, at the end io.EOF or another error, with or without bytes. *)
Theorem C38_pieces : forall entries l p e b, xml_decode entries (map More l ++ [Last p]) b = Some (xml_unmarshal entries (whole l ++ p) b) /\ xml_decode entries (map More l ++ [Broken p e]) b = Some (xml_unmarshal entries (whole l ++ p) b).
Proof.
  intros entries l p e b. assert (G : forall s, match xml_parse s with Some _ => Some (xml_unmarshal entries s b) | None => Some (Err XSyntax) end = Some (xml_unmarshal entries s b)).
  { intros s. unfold xml_unmarshal. destruct (xml_parse s); reflexivity. }
  unfold xml_decode. rewrite !delivered_pieces. split; apply G.
Qed.
(** A document cut at any place, in any pieces, whose reader does not go on: still waiting;
    whose reader ends there: an error, never part of a BOM. *)
Theorem C38_incomplete : forall pretty b s l q entries b0, xml_encode_text pretty b = Ok s -> s = whole l ++ q -> q <> "" ->
  xml_decode entries (map More l) b0 = None /\ xml_decode entries (map More l ++ [Last ""]) b0 = Some (Err XSyntax).
Proof.
  intros pretty b s l q entries b0 E Q N. pose proof (C38_truncated pretty b s (whole l) q entries b0 E Q N) as U. split.
  - assert (D : delivered (map More l) = (whole l, false)) by (clear; induction l as [|p l IH]; [reflexivity|]; cbn [map delivered]; rewrite IH; reflexivity).
    unfold xml_decode. rewrite D. unfold xml_unmarshal in U. destruct (xml_parse (whole l)) as [x|]; [|reflexivity]. destruct (bom_of_xml entries x b0); discriminate.
  - rewrite (proj1 (C38_pieces entries l "" "" b0)), append_nil_r, U. reflexivity.
Qed.
(** What was encoded is decoded as if it had come at once, in whatever pieces it arrives
    and whatever comes after, an error of the reader included. *)
Theorem C38_round_trip : forall b pretty s entries l ds rest b0, xml_encode_text pretty b = Ok s -> whole l = s ++ rest ->
  xml_decode entries (map More l ++ ds) b0 = Some (xml_unmarshal entries s b0).
Proof.
  intros b pretty s entries l ds rest b0 E W. apply C38_settled. destruct (C37_document pretty b s E) as (e & _ & _ & _ & X).
  assert (N : xml_parse s <> None) by (rewrite X; discriminate). pose proof (C38_rest entries s rest b0 N) as D. rewrite <- W in D.
  assert (L : delivered (map More l) = (whole l, false)) by (clear; induction l as [|p l IH]; [reflexivity|]; cbn [map delivered]; rewrite IH; reflexivity).
  unfold xml_decode. rewrite L. rewrite W, (parse_ext rest s _ X), <- W, D. reflexivity.
Qed.
Example C38_nonvacuous : xml_decode xmlNamespaces (map More (halves (xml_shown true b_tricky)) ++ [Broken "<garbage &" "reset"]) zero_BOM = Some (Ok (xml_back b_tricky)) /\ xml_decode xmlNamespaces [More (hd "" (halves (xml_shown true b_tricky)))] zero_BOM = None.
Proof. split; vm_compute; reflexivity. Qed.

Definition xml_text_theorems := (C37_tree, C37_document, C37_encodes, C37_utf8, C17_text_any_depth, C17_text_decoded, C17_text_decodes_partial, C17_text_round_trip_partial, C17_text_deep_refuted, C30_text, C36_text, C36_text_partial, C19_text, C25_xml_text,
  C26_xml_pretty, C26_xml_default, C26_xml_escape_noop, C26_xml_encode, C26_xml_same_bom, C26_xml_same_bom_partial, C26_xml_same_failure,
  C29_xml_nil, C29_xml_header, C29_xml_prefix, C29_xml_unencodable, C29_xml_write_error, C29_xml_nothing_refuted,
  C38_rest, C38_rest_decoded, C38_truncated, C38_settled, C38_pieces, C38_incomplete, C38_round_trip).
Print Assumptions xml_text_theorems.
