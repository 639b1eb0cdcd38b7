(** Property theorems for XML, on document trees: C15, C17, C18, C19, C30. [bom_to_xml]
    models what Encode of the XML encoder writes after the XML header, [xml_seen pretty]
    the element that the decoder gets to see of it, compact or indented, [bom_of_xml _ _
    zero_BOM] decoding into a fresh BOM; the order in which Go visits the map of the name
    spaces is arbitrary. *)
From Verif Require Import Base Types Univ TypeTable Wt Reify Consts LinkModel LinkProofs NumbersProofs Utf8Proofs GobModel GobSpec GobProofs ConvertPropProofs XmlValues Version VersionProofs ConvertModel ConvertSpec ExampleBom Utf8 JsonModel
  XmlModel XmlBack XmlTable XmlSpec XmlProofs XmlRound XmlNeat XmlNs XmlTop XmlLimit XmlDeep XmlLossless XmlLossProofs XmlLossBom XmlDeps XmlErrors XmlVersions PropsJson.
From Coq Require Import Lia Permutation.
Local Open Scope string_scope.

Lemma ok_iff (E A : Type) (x y : A) : @Ok E A x = Ok y <-> x = y.
Proof. split; congruence. Qed.

(** The limit on nesting of encoding/xml. *)
Local Existing Instance go_limit.

(** ** C17: round trip *)

(** What encodes can be decoded, whatever the order of the map and the layout, and the
    result is the BOM except for the losses that [xml_back] makes explicit. *)
Theorem C17_decodes_partial : forall b els, bom_sane b -> bom_to_xml b = Ok els ->
  exists e, els = [e] /\ forall pretty entries, Permutation entries xmlNamespaces -> (tall e <= 5000)%N ->
    bom_of_xml entries (xml_seen pretty e) zero_BOM = Ok (xml_back b).
Proof.
  intros b els S E. destruct (bom_round_trip b els false xmlNamespaces S E (Permutation_refl _)) as (e & -> & _). exists e. split; [reflexivity|].
  intros pretty entries P T. destruct (bom_round_trip b [e] pretty entries S E P) as (e' & [= <-] & R). exact (R T).
Qed.
(** With no bound at all: there are no other outcomes than that BOM and the refusal of
    encoding/xml to decode values nested more than 10000 deep. *)
Theorem C17_any_depth : forall b els, bom_sane b -> bom_to_xml b = Ok els ->
  exists e, els = [e] /\ forall pretty entries, Permutation entries xmlNamespaces ->
    bom_of_xml entries (xml_seen pretty e) zero_BOM = Ok (xml_back b) \/ bom_of_xml entries (xml_seen pretty e) zero_BOM = Err XDepth.
Proof.
  intros b els S E. destruct (bom_round_or_depth b els false xmlNamespaces S E (Permutation_refl _)) as (e & -> & _). exists e. split; [reflexivity|].
  intros pretty entries P. destruct (bom_round_or_depth b [e] pretty entries S E P) as (e' & [= <-] & R). exact R.
Qed.
(** So whatever decodes is that BOM, and it is the one that was encoded (as far as XML has
    a place for it) exactly if nothing in it is lost. *)
Theorem C17_decoded : forall b e pretty entries c, bom_sane b -> bom_to_xml b = Ok [e] -> Permutation entries xmlNamespaces ->
  bom_of_xml entries (xml_seen pretty e) zero_BOM = Ok c -> c = xml_back b /\ (c = xml_view b <-> xml_lossless b).
Proof.
  intros b e pretty entries c S E P D. destruct (C17_any_depth b [e] S E) as (e' & [= <-] & R). specialize (R pretty entries P). rewrite D in R.
  destruct R as [R|R]; [|discriminate R]. apply (ok_iff xerr BOM) in R. subst c. split; [reflexivity|]. apply lossless_iff.
Qed.
(** Decoding gives the BOM back (as far as XML has a place for it) exactly if nothing in
    it is lost. *)
Theorem C17_round_trip_partial : forall b e, bom_sane b -> bom_to_xml b = Ok [e] -> (tall e <= 5000)%N ->
  forall pretty entries, Permutation entries xmlNamespaces ->
  bom_of_xml entries (xml_seen pretty e) zero_BOM = Ok (xml_view b) <-> xml_lossless b.
Proof.
  intros b e S E T pretty entries P. destruct (bom_round_trip b [e] pretty entries S E P) as (e' & [= <-] & R). rewrite (R T), <- lossless_iff.
  apply ok_iff.
Qed.
Definition ex_xml : BOM := set_BOM_XMLNS (namespace_of 7%Z) ex_json.
Example C17_nonvacuous : exists e, bom_sane ex_xml /\ bom_to_xml ex_xml = Ok [e] /\ (tall e <= 5000)%N /\
  bom_of_xml (rev xmlNamespaces) (xml_seen true e) zero_BOM = Ok (xml_view ex_xml) /\
  map Component_Name (members (BOM_Components (xml_view ex_xml))) = ["acme"; "c"] /\ BOM_SpecVersion (xml_view ex_xml) = v1_6.
Proof.
  eexists. split; [vm_compute; repeat split|]. split; [vm_compute; reflexivity|]. split; [vm_compute; discriminate|]. split; [vm_compute; reflexivity|]. split; vm_compute; reflexivity.
Qed.
(** The proviso of C17_round_trip_partial for this BOM. *)
Example C17_lossless_nonvacuous : xml_lossless ex_xml.
Proof.
  destruct C17_nonvacuous as (e & S & E & T & R & _). apply (C17_round_trip_partial ex_xml e S E T true (rev xmlNamespaces)); [|exact R]. apply Permutation_sym, Permutation_rev.
Qed.

(** Losses. A signature; the licensing of an expression; the classification of the data of
    an identity's evidence; empty strings in a list; whatever an IKEv2 record has besides
    a reference; a single identity comes back as a list of one. *)
Definition xml_trip (b : BOM) : option BOM :=
  match bom_to_xml b with
  | Ok [e] => match bom_of_xml xmlNamespaces (xml_seen false e) zero_BOM with Ok c => Some c | Err _ => None end
  | _ => None
  end.
Definition b_licensed : BOM := with_component (set_Component_Licenses (list_of [set_LicenseChoice_Licensing (Some zero_Licensing) (set_LicenseChoice_Expression "MIT" zero_LicenseChoice)]) zero_Component).
Definition b_one_identity : BOM :=
  with_component (set_Component_Evidence (Some (set_Evidence_Identity (Some (mkEvidenceIdentityChoice (Some (set_EvidenceIdentity_Field "purl" zero_EvidenceIdentity)) None)) zero_Evidence)) zero_Component).
Definition b_tagged (tags : list string) : BOM := with_component (set_Component_Tags (list_of tags) zero_Component).
Theorem C17_losses_refuted :
  option_map BOM_Signature (xml_trip b_signed) = Some None /\
  option_map (fun b => option_map (fun c => map LicenseChoice_Licensing (members (Component_Licenses c))) (first_component b)) (xml_trip b_licensed) = Some (Some [None]) /\
  xml_trip b_one_identity = xml_trip (with_component (set_Component_Evidence (Some (set_Evidence_Identity
    (Some (mkEvidenceIdentityChoice None (list_of [set_EvidenceIdentity_Field "purl" zero_EvidenceIdentity]))) zero_Evidence)) zero_Component)) /\
  (exists c, xml_trip b_one_identity = Some c) /\
  option_map (fun b => option_map (fun c => members (Component_Tags c)) (first_component b)) (xml_trip (b_tagged ["a"; ""; "b"])) = Some (Some ["a"; "b"]) /\
  option_map (fun b => option_map Component_Tags (first_component b)) (xml_trip (b_tagged [""])) = Some (Some None).
Proof. do 3 (split; [vm_compute; reflexivity|]). split; [eexists; vm_compute; reflexivity|]. split; vm_compute; reflexivity. Qed.

(** And there are BOMs that encode and do not decode: 5000 components, each within the one
    before, or any greater number. *)
Theorem C17_deep_refuted : forall n entries, (4999 <= N.of_nat n)%N -> bom_sane (b_nest n) /\
  exists e, bom_to_xml (b_nest n) = Ok [e] /\ bom_of_xml entries (xml_seen false e) zero_BOM = Err XDepth.
Proof. intros n entries D. split; [apply nest_bom_sane|]. exists (nest_doc "" n). split; [apply nest_bom_encodes|apply nest_bom_deep, D]. Qed.

(** ** C30: dependencies *)

(** Every list of dependencies survives, in order; the lists of each are kept, and empty
    ones become absent. [xml_clean] replaces the characters that XML does not allow. *)
Theorem C30_dependencies : forall b e pretty entries c, bom_sane b -> bom_to_xml b = Ok [e] -> Permutation entries xmlNamespaces ->
  bom_of_xml entries (xml_seen pretty e) zero_BOM = Ok c ->
  BOM_Dependencies c = present (map dependency_back (members (BOM_Dependencies b))).
Proof.
  intros b e pretty entries c S E P D. destruct (C17_decoded _ _ _ _ _ S E P D) as (-> & _). apply dependencies_back.
Qed.
(** If all references consist of characters that XML allows, and no list is empty, nothing
    changes. *)
Theorem C30_exact : forall b e pretty entries c, bom_sane b -> bom_to_xml b = Ok [e] -> Permutation entries xmlNamespaces ->
  bom_of_xml entries (xml_seen pretty e) zero_BOM = Ok c -> members (BOM_Dependencies b) <> [] ->
  (forall d, In d (members (BOM_Dependencies b)) -> xml_clean (Dependency_Ref d) = Dependency_Ref d /\
     forall l, In l [Dependency_Dependencies d; Dependency_Provides d] -> l = None \/ members l <> [] /\ forall s, In s (members l) -> xml_clean s = s) ->
  BOM_Dependencies c = BOM_Dependencies b.
Proof.
  intros b e pretty entries c S E P D N K. rewrite (C30_dependencies _ _ _ _ _ S E P D).
  assert (L : forall (l : ptr (slice string)), (l = None \/ members l <> [] /\ forall s, In s (members l) -> xml_clean s = s) -> present (map xml_clean (members l)) = l).
  { intros l [->|(Nl & Kl)]; [reflexivity|]. assert (Q : map xml_clean (members l) = members l) by (rewrite <- map_id; apply map_ext_in; exact Kl). rewrite Q.
    destruct l as [[[|x l]|]|]; [exfalso; apply Nl; reflexivity|reflexivity|exfalso; apply Nl; reflexivity|reflexivity]. }
  assert (Q : map dependency_back (members (BOM_Dependencies b)) = members (BOM_Dependencies b)).
  { rewrite <- map_id. apply map_ext_in. intros d I. destruct (K d I) as (R & K'). unfold dependency_back. rewrite R, !L; [destruct d; reflexivity| |]; apply K'; cbn; auto. }
  rewrite Q. destruct (BOM_Dependencies b) as [[[|x l]|]|]; [exfalso; apply N; reflexivity|reflexivity|exfalso; apply N; reflexivity|reflexivity].
Qed.
Definition b_graph : BOM := set_BOM_Dependencies (list_of [mkDependency "a" (list_of ["b"; ""; "c"]) (list_of []); mkDependency "b" None (list_of ["d"])]) NewBOM.
Example C30_nonvacuous : exists e c, bom_sane b_graph /\ bom_to_xml b_graph = Ok [e] /\ bom_of_xml xmlNamespaces (xml_seen true e) zero_BOM = Ok c /\
  BOM_Dependencies c = list_of [mkDependency "a" (list_of ["b"; ""; "c"]) None; mkDependency "b" None (list_of ["d"])].
Proof. eexists _, _. split; [vm_compute; repeat split|]. split; [vm_compute; reflexivity|]. split; vm_compute; reflexivity. Qed.

(** ** C19: the version and the name space of a document *)

(** Whatever the document and whatever the BOM that it is decoded into, for every order of
    the map: the version is that of the name space, which is the value of the last xmlns
    attribute of the root element; with no such attribute the name space in the BOM counts;
    with an unknown one the version stays. *)
Theorem C19_decoded : forall entries x b c, Permutation entries xmlNamespaces -> bom_of_xml entries x b = Ok c ->
  exists sp attrs kids, x = XElem sp "bom" attrs kids /\ BOM_XMLNS c = xmlns_of attrs (BOM_XMLNS b) /\
    (forall v, is_version v = true -> BOM_XMLNS c = namespace_of v -> BOM_SpecVersion c = v) /\
    ((forall v, is_version v = true -> BOM_XMLNS c <> namespace_of v) -> BOM_SpecVersion c = BOM_SpecVersion b).
Proof.
  intros entries x b c P D. destruct (decoded_name _ _ _ _ D) as (sp & a & ks & -> & _ & N & V). exists sp, a, ks. rewrite N, V. do 2 (split; [reflexivity|]). apply match_namespace_spec, P.
Qed.
Definition ns_doc (ns : string) : xml := XElem ns "bom" [("xmlns", ns); ("version", "1")] [].
Example C19_decoded_nonvacuous :
  (exists c, bom_of_xml (rev xmlNamespaces) (ns_doc "http://cyclonedx.org/schema/bom/1.4") zero_BOM = Ok c /\ BOM_SpecVersion c = v1_4) /\
  (exists c, bom_of_xml xmlNamespaces (ns_doc "urn:other") NewBOM = Ok c /\ BOM_SpecVersion c = BOM_SpecVersion NewBOM).
Proof. split; eexists; split; vm_compute; reflexivity. Qed.

(** ** C15: XML accepts all versions *)

(** Encode does not look at the version. EncodeVersion encodes the converted copy; there
    is no version for which it returns without trying. *)
Theorem C15_xml_encode : forall v b, bom_to_xml (set_BOM_SpecVersion v b) = bom_to_xml b.
Proof. intros. apply version_unseen. Qed.
(** /repo/encode.go:80-92. *)
Definition xml_encode_version (sv : SpecVersion) (b : BOM) : result string xout :=
  bind (copyAndConvert sv b) (fun c => Ok (bom_to_xml c)).
Theorem C15_xml_encode_version : forall sv b, exists c, copy b = Ok c /\ xml_encode_version sv b = Ok (bom_to_xml (convert sv c)).
Proof.
  intros sv b. exists (settle b). split; [apply copy_settle|]. unfold xml_encode_version. rewrite copyAndConvert_settle. reflexivity.
Qed.
(** And it succeeds for every version, known or not, if the BOM can be encoded at all: neither
    copying nor converting makes it unencodable. *)
Theorem C15_xml_all_versions : forall sv b e, bom_to_xml b = Ok [e] -> exists e', xml_encode_version sv b = Ok (Ok [e']).
Proof.
  intros sv b e E. destruct (versions_encode sv b) as (els & V); [exists [e]; exact E|]. destruct (root_attrs (convert sv (settle b)) els V) as (rest & ks & -> & _). eexists.
  unfold xml_encode_version. rewrite copyAndConvert_settle. cbn [bind]. rewrite V. reflexivity.
Qed.
(** Each converter matters: licenses, evidence, certificates, tools and annotators in one BOM. *)
Definition b_versions : BOM :=
  let license := mkLicenseChoice (Some (set_License_ID "MIT" zero_License)) "" None None "" None None in
  let evidence := set_Evidence_Licenses (list_of [license]) (set_Evidence_Identity (Some (mkEvidenceIdentityChoice None (list_of [zero_EvidenceIdentity; zero_EvidenceIdentity]))) zero_Evidence) in
  let inner := set_Component_Evidence (Some evidence) (set_Component_Name "inner" zero_Component) in
  let outer := set_Component_Licenses (list_of [license; mkLicenseChoice None "MIT OR BSD" None None "" None None]) (set_Component_Components (list_of [inner]) (set_Component_Name "outer" zero_Component)) in
  let tools := mkToolsChoice None (list_of [inner]) (list_of [set_Service_Name "s" zero_Service]) in
  let annotator := mkAnnotator None None None (Some (set_Service_Licenses (list_of [license]) zero_Service)) in
  set_BOM_Components (list_of [outer]) (set_BOM_Metadata (Some (set_Metadata_Tools (Some tools) zero_Metadata))
    (set_BOM_Annotations (list_of [set_Annotation_Annotator (Some annotator) zero_Annotation])
    (set_BOM_Vulnerabilities (list_of [set_Vulnerability_Tools (Some tools) zero_Vulnerability]) NewBOM))).
Example C15_xml_all_versions_nonvacuous : (exists e, bom_to_xml b_versions = Ok [e]) /\ exists e0 e7, xml_encode_version v1_0 b_versions = Ok (Ok [e0]) /\ xml_encode_version v1_5 b_versions = Ok (Ok [e7]) /\ e0 <> e7.
Proof. split; [eexists; vm_compute; reflexivity|]. eexists _, _. split; [vm_compute; reflexivity|]. split; [vm_compute; reflexivity|]. discriminate. Qed.

(** ** C18: the version as an element *)

(** UnmarshalXML accepts exactly the texts of the known versions, and otherwise reports
    ErrInvalidSpecVersion, whatever the value was before. *)
Theorem C18_xml_read : forall sp name attrs s old depth, (depth < limit)%N ->
  (forall v, is_version v = true -> s = version_text v -> xdec (XElem sp name attrs [XText s]) (TRef "SpecVersion") depth old = Ok (VInt v)) /\
  ((forall v, is_version v = true -> s <> version_text v) -> xdec (XElem sp name attrs [XText s]) (TRef "SpecVersion") depth old = Err XInvalidSpecVersion).
Proof.
  intros sp name attrs s old depth L.
  assert (D : xdec (XElem sp name attrs [XText s]) (TRef "SpecVersion") depth old = match parse_spec_version s with Some z => Ok (VInt z) | None => Err XInvalidSpecVersion end).
  { change (xdec (XElem sp name attrs [XText s])) with (dec_elem sp name attrs [KText s]). unfold dec_elem. rewrite (proj2 (N.leb_gt _ _) L).
    change (dec_slice sp name attrs [KText s] (TRef "SpecVersion") depth old = match parse_spec_version s with Some z => Ok (VInt z) | None => Err XInvalidSpecVersion end).
    change (match parse_spec_version (s ++ "") with Some z => @Ok xerr val (VInt z) | None => Err XInvalidSpecVersion end = match parse_spec_version s with Some z => Ok (VInt z) | None => Err XInvalidSpecVersion end).
    rewrite append_nil_r. reflexivity. }
  rewrite D. split.
  - intros v I ->. rewrite (proj2 (parse_spec_version_spec (version_text v) v)); auto.
  - intros N. destruct (parse_spec_version s) as [z|] eqn:E; [|reflexivity]. apply parse_spec_version_spec in E as (I & E). destruct (N z I E).
Qed.
(** What MarshalXML writes of a version: an element with its text. It is read back if the
    version is a known one; the text of any other is not accepted. *)
Theorem C18_xml_written : forall v omit name, nenc (annotate (VInt v)) (TRef "SpecVersion") omit name = Ok [XElem "" name [] [XText (SpecVersion_String v)]] /\
  forall pretty old, xdec (xml_seen pretty (XElem "" name [] [XText (SpecVersion_String v)])) (TRef "SpecVersion") 0%N old =
    if is_version v then Ok (VInt v) else Err XInvalidSpecVersion.
Proof.
  intros v omit name.
  assert (V : str_all visible (SpecVersion_String v) = true).
  { unfold SpecVersion_String, stringer. destruct (_ || _)%bool; [|apply substring_visible; reflexivity].
    rewrite !visible_app, format_visible. reflexivity. }
  assert (N : String.eqb (SpecVersion_String v) "" = false).
  { apply String.eqb_neq. rewrite spec_version_string. destruct (is_version v) eqn:I; [|discriminate].
    intros Q. assert (parse_spec_version "" = Some v) by (rewrite <- Q; apply parse_spec_version_spec; auto). discriminate. }
  split.
  - change (Ok [text_elem name (SpecVersion_String v)] = Ok [XElem "" name [] [XText (SpecVersion_String v)]] :> xout). unfold text_elem, text, elem. rewrite N, (clean_visible _ V). reflexivity.
  - intros pretty old. assert (Q : xml_seen pretty (XElem "" name [] [XText (SpecVersion_String v)]) = XElem "" name [] [XText (SpecVersion_String v)]) by (destruct pretty; reflexivity).
    rewrite Q. destruct (C18_xml_read "" name [] (SpecVersion_String v) old 0%N eq_refl) as (A & B). destruct (is_version v) eqn:I.
    + apply A; [exact I|]. rewrite spec_version_string, I. reflexivity.
    + apply B. intros w W E. pose proof (spec_version_invalid v I) as H. rewrite E in H. rewrite (proj2 (parse_spec_version_spec _ w)) in H by auto. discriminate.
Qed.
Example C18_xml_nonvacuous : xdec (XElem "" "v" [] [XText "1.5"]) (TRef "SpecVersion") 3%N (VInt 0) = Ok (VInt v1_5) /\
  xdec (XElem "" "v" [] [XText "SpecVersion(9)"]) (TRef "SpecVersion") 3%N (VInt 0) = Err XInvalidSpecVersion.
Proof. split; reflexivity. Qed.

(** ** C36: EncodeVersion for XML, from end to end *)

(** What EncodeVersion writes decodes to the copy converted to that version, exactly if it
    has nothing that XML cannot carry; the version found is in any case the one that was
    asked for. *)
Lemma version_back : forall sv c d entries x, is_version sv = true -> Permutation entries xmlNamespaces -> d = xml_back (convert sv c) -> bom_of_xml entries x zero_BOM = Ok d ->
  BOM_SpecVersion d = sv /\ BOM_XMLNS d = namespace_of sv.
Proof.
  intros sv c d entries x V P Q D. destruct (markers sv c) as (_ & N & _).
  assert (X : BOM_XMLNS d = xml_clean (namespace_of sv)).
  { rewrite Q, <- N. generalize (convert sv c). intros y. unfold xml_back. cbv zeta. rewrite (bom_shape y). unfold bom_values. destruct y. reflexivity. }
  rewrite clean_visible in X.
  2:{ unfold is_version in V. apply andb_prop in V as (V1 & V2). apply Z.leb_le in V1, V2. unfold v1_0, v1_7 in *.
      assert (K : In sv (map Z.of_nat (seq 1 8))) by (apply in_map_iff; exists (Z.to_nat sv); split; [lia|apply in_seq; lia]).
      cbn in K. repeat destruct K as [<-|K]; try reflexivity. destruct K. }
  split; [|exact X]. destruct (decoded_name _ _ _ _ D) as (sp & a & ks & _ & _ & Y & ->). rewrite <- Y, X. exact (proj1 (match_namespace_spec entries _ _ P) sv V eq_refl).
Qed.
Theorem C36_encode_version : forall sv b e c, xml_encode_version sv b = Ok (Ok [e]) -> copy b = Ok c -> bom_sane (convert sv c) ->
  forall pretty entries d, Permutation entries xmlNamespaces -> bom_of_xml entries (xml_seen pretty e) zero_BOM = Ok d ->
  (d = xml_view (convert sv c) <-> xml_lossless (convert sv c)) /\ (is_version sv = true -> BOM_SpecVersion d = sv /\ BOM_XMLNS d = namespace_of sv).
Proof.
  intros sv b e c E C S pretty entries d P D. destruct (C15_xml_encode_version sv b) as (c' & C' & E'). rewrite C in C'. injection C' as <-. rewrite E' in E. apply (ok_iff string xout) in E.
  destruct (C17_decoded _ _ _ _ _ S E P D) as (Q & L). split; [exact L|]. intros V. exact (version_back sv c d entries _ V P Q D).
Qed.
(** And it does decode if it is not nested too deeply. *)
Theorem C36_encode_version_partial : forall sv b e c, xml_encode_version sv b = Ok (Ok [e]) -> copy b = Ok c -> bom_sane (convert sv c) -> (tall e <= 5000)%N ->
  forall pretty entries, Permutation entries xmlNamespaces ->
  (bom_of_xml entries (xml_seen pretty e) zero_BOM = Ok (xml_view (convert sv c)) <-> xml_lossless (convert sv c)) /\
  (is_version sv = true -> exists d, bom_of_xml entries (xml_seen pretty e) zero_BOM = Ok d /\ BOM_SpecVersion d = sv /\ BOM_XMLNS d = namespace_of sv).
Proof.
  intros sv b e c E C S T pretty entries P. destruct (C15_xml_encode_version sv b) as (c' & C' & E'). rewrite C in C'. injection C' as <-. rewrite E' in E. apply (ok_iff string xout) in E.
  split; [exact (C17_round_trip_partial _ _ S E T pretty entries P)|]. intros V.
  destruct (C17_decodes_partial _ _ S E) as (e' & [= <-] & D). specialize (D pretty entries P T). eexists. split; [exact D|].
  exact (version_back sv c _ entries _ V P eq_refl D).
Qed.
Definition named_component (n : string) : Component := set_Component_BOMRef n (set_Component_Type "library" (set_Component_Name n zero_Component)).
Definition b_tree : BOM := set_BOM_Components (list_of [named_component "a"; named_component "b"]) (set_BOM_Dependencies (list_of [mkDependency "a" (list_of ["b"]) (list_of ["c"])]) NewBOM).
Example C36_nonvacuous : exists e c, xml_encode_version v1_3 b_tree = Ok (Ok [e]) /\ copy b_tree = Ok c /\ bom_sane (convert v1_3 c) /\ (tall e <= 5000)%N /\
  bom_of_xml xmlNamespaces (xml_seen false e) zero_BOM = Ok (xml_view (convert v1_3 c)) /\ BOM_SpecVersion (xml_view (convert v1_3 c)) = v1_3.
Proof. eexists _, _. split; [vm_compute; reflexivity|]. split; [vm_compute; reflexivity|]. split; [vm_compute; repeat split|]. split; [vm_compute; discriminate|]. split; vm_compute; reflexivity. Qed.

Definition xml_theorems :=
  (C17_any_depth, C17_decoded, C17_decodes_partial, C17_round_trip_partial, C17_losses_refuted, C17_deep_refuted, C30_dependencies, C30_exact, C19_decoded, C15_xml_encode, C15_xml_encode_version, C15_xml_all_versions, C18_xml_read, C18_xml_written, C36_encode_version, C36_encode_version_partial).
Print Assumptions xml_theorems.
