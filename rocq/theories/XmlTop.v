(** Encoding a BOM and decoding what was written, compact or indented. *)
From Verif Require Import Base Types Univ TypeTable Wt ReifyBase Reify ReifyFacts Consts Version VersionProofs ConvertModel ConvertSpec JsonModel JsonProofs
  XmlModel XmlBack XmlTable XmlSpec XmlProofs XmlRound XmlNeat XmlNs.
From Coq Require Import Lia Permutation.
Local Open Scope string_scope.

Lemma root_attrs b els : bom_to_xml b = Ok els -> exists rest ks, els = [XElem "" "bom" (("xmlns", xml_clean (BOM_XMLNS b)) :: rest) ks] /\ assoc "xmlns" rest = None.
Proof.
  intros E. assert (E' : enc_struct fields_BOM (map annotate (bom_values b)) "BOM" = Ok els).
  { rewrite <- E. unfold bom_to_xml. rewrite (bom_shape b). reflexivity. }
  clear E. unfold enc_struct in E'. apply bind_ok in E' as (ks & _ & Q). injection Q as <-. change (match xml_name fields_BOM with Some n => n | None => "BOM" end) with "bom".
  destruct b as [? ns ? ? ? serial ver]. unfold bom_values. cbn [reify_BOM fields_of_val map]. eexists _, ks. split; [reflexivity|].
  cbn. destruct serial; reflexivity.
Qed.
Lemma xmlns_none a : forall old, assoc "xmlns" a = None -> xmlns_of a old = old.
Proof.
  induction a as [|(n & s) a IH]; intros old H; [reflexivity|]. cbn [xmlns_of assoc] in *. destruct (String.eqb_spec "xmlns" n) as [<-|N]; [discriminate|].
  destruct (String.eqb_spec n "xmlns"); [congruence|]. apply IH, H.
Qed.
(** The tree that the decoder gets. *)
Definition xml_seen (pretty : bool) (x : xml) : xml := resolve "" (if pretty then indent 0 x else x).
Lemma lookup_order entries ns old : Permutation entries xmlNamespaces -> match_namespace entries ns old = match_namespace xmlNamespaces ns old.
Proof.
  intros P. destruct (match_namespace_spec entries ns old P) as (A & B). destruct (match_namespace_spec xmlNamespaces ns old (Permutation_refl _)) as (C & D).
  assert (V : forall v, is_version v = true -> In v (map Z.of_nat (seq 1 8))).
  { intros v I. unfold is_version in I. apply andb_prop in I as (I1 & I2). apply Z.leb_le in I1, I2. unfold v1_0, v1_7 in *. apply in_map_iff. exists (Z.to_nat v). split; [lia|]. apply in_seq. lia. }
  assert (K : (exists v, is_version v = true /\ ns = namespace_of v) \/ (forall v, is_version v = true -> ns <> namespace_of v)).
  { destruct (existsb (fun v => is_version v && String.eqb ns (namespace_of v))%bool (map Z.of_nat (seq 1 8))) eqn:E.
    - left. apply existsb_exists in E as (v & _ & E). apply andb_prop in E as (I & E). exists v. apply String.eqb_eq in E. auto.
    - right. intros v I N. rewrite <- Bool.not_true_iff_false in E. apply E, existsb_exists. exists v. split; [apply V, I|]. rewrite I. subst. apply String.eqb_refl. }
  destruct K as [(v & I & N)|K].
  - rewrite (A v I N), (C v I N). reflexivity.
  - rewrite (B K), (D K). reflexivity.
Qed.
Lemma declared_none a : forall old, assoc "xmlns" a = None -> declared a old = old.
Proof.
  induction a as [|(n & s) a IH]; intros old H; [reflexivity|]. cbn [declared assoc] in *. destruct (String.eqb_spec "xmlns" n) as [<-|N]; [discriminate|].
  destruct (String.eqb_spec n "xmlns"); [congruence|]. apply IH, H.
Qed.
Lemma resolve_root ns l a ks : resolve ns (XElem "" l a ks) = XElem (declared a ns) l a (map (resolve (declared a ns)) ks).
Proof. reflexivity. Qed.
Theorem bom_round_within {Lim : Limit} b els pretty entries : bom_sane b -> bom_to_xml b = Ok els -> Permutation entries xmlNamespaces ->
  exists e, els = [e] /\ ((2 * tall e <= limit)%N -> bom_within entries (xml_seen pretty e) zero_BOM = Ok (xml_back b)).
Proof.
  intros S E P. destruct (root_attrs b els E) as (rest & ks & -> & A). set (ns := xml_clean (BOM_XMLNS b)) in *. destruct (bom_reads b _ S E) as (e & Q & _ & El & Ne & R). injection Q as <-. eexists. split; [reflexivity|]. intros T.
  set (e := XElem "" "bom" (("xmlns", ns) :: rest) ks) in *.
  destruct (R (xml_seen pretty e) entries) as (sp & a & ks' & Ex & D).
  - unfold xml_seen. destruct pretty; apply seen_resolve; [apply seen_indent; assumption|apply seen_refl; assumption].
  - unfold xml_seen. rewrite tall_resolve. destruct pretty; [rewrite tall_indent|]; exact T.
  - rewrite D. f_equal. cbv zeta.
    assert (Sp : sp = ns /\ a = ("xmlns", ns) :: rest).
    { revert Ex. unfold xml_seen, e. clear - A. assert (L : declared (("xmlns", ns) :: rest) "" = ns) by exact (declared_none rest ns A). destruct pretty.
      - rewrite indent_laid. destruct (existsb is_elem ks); rewrite resolve_root, L; intros Q; injection Q as -> <- _; auto.
      - rewrite resolve_root, L; intros Q; injection Q as -> <- _; auto. }
    destruct Sp as (-> & ->).
    destruct (decoded_name _ _ _ _ D) as (sp2 & a2 & ks2 & Q2 & N2 & X2 & _). rewrite Ex in Q2. injection Q2 as <- <- _.
    change (xmlns_of (("xmlns", ns) :: rest) (BOM_XMLNS zero_BOM)) with (xmlns_of rest ns) in X2. rewrite (xmlns_none rest ns A) in X2.
    unfold xml_back. cbv zeta. rewrite (lookup_order _ _ _ P).
    assert (Y : reflect_BOM (default (TRef "BOM") (bback (back_of (reify_BOM b)) (TRef "BOM") false)) = reflect_BOM (VStruct (back_fields fields_BOM (map back_of (bom_values b))))).
    { rewrite (bom_shape b). reflexivity. }
    rewrite Y. set (c := reflect_BOM (VStruct (back_fields fields_BOM (map back_of (bom_values b))))) in *.
    assert (X3 : BOM_XMLNS c = ns). { rewrite <- X2. clearbody c. destruct c. reflexivity. }
    rewrite X3. reflexivity.
Qed.
(** With the limit of encoding/xml. *)
Theorem bom_round_trip b els pretty entries : bom_sane b -> bom_to_xml b = Ok els -> Permutation entries xmlNamespaces ->
  exists e, els = [e] /\ ((tall e <= 5000)%N -> bom_of_xml entries (xml_seen pretty e) zero_BOM = Ok (xml_back b)).
Proof.
  intros S E P. destruct (@bom_round_within go_limit b els pretty entries S E P) as (e & Q & R). exists e. split; [exact Q|]. intros T. apply R.
  change (@limit go_limit) with 10000%N. lia.
Qed.
