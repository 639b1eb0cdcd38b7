(** Decoding any document: the fields of the BOM that the name space decides. *)
From Verif Require Import Base Types Univ TypeTable Wt ReifyBase Reify ReifyFacts Consts Version VersionProofs ConvertSpec JsonModel JsonProofs XmlModel XmlTable.
From Coq Require Import Lia Permutation.
Local Open Scope string_scope.

Definition kept (fs : list field) (i : nat) (cur cur' : list val) : Prop := length cur' = length cur /\ nth_error cur' i = nth_error cur i.
Lemma find_place_element fs : forall parent local k j, find_place parent local k fs = Some (Here j) ->
  exists f, nth_error fs (j - k) = Some f /\ (k <= j)%nat /\ is_element f = true.
Proof.
  induction fs as [|f fs IH]; intros parent local k j H; [discriminate|]. cbn [find_place] in H. destruct (place_of parent local k f) as [p|] eqn:P.
  - injection H as ->. exists f. unfold place_of in P. unfold is_element.
    assert (Q : (if match xml_info f with Some (mkX XElement _ _ _) => true | _ => false end then true else false) = true /\ k = j).
    { destruct (xml_info f) as [[[] ps n o]|]; try discriminate. destruct parent, ps as [|? [|? ?]]; try discriminate.
      - destruct (_ && _)%bool; [injection P as ->; auto|discriminate].
      - destruct (String.eqb n local); [injection P as ->; auto|discriminate].
      - destruct (String.eqb _ local); discriminate.
      - destruct (String.eqb _ local); discriminate. }
    destruct Q as (Q & ->). rewrite Nat.sub_diag. split; [reflexivity|]. split; [lia|]. destruct (match xml_info f with Some (mkX XElement _ _ _) => true | _ => false end); [reflexivity|discriminate].
  - apply IH in H as (g & G & L & E). exists g. split; [|split; [lia|exact E]]. replace (j - k)%nat with (Datatypes.S (j - Datatypes.S k)) by lia. exact G.
Qed.
Lemma set_nth_length (i : nat) : forall (v : val) l, length (set_nth i v l) = length l.
Proof. induction i as [|i IH]; intros v [|x l]; cbn; auto. Qed.
Lemma set_nth_other (i : nat) : forall j (v : val) l, i <> j -> nth_error (set_nth i v l) j = nth_error l j.
Proof. induction i as [|i IH]; intros [|j] v [|x l] H; cbn; auto; congruence. Qed.
Lemma dec_at_keeps fs i f j dec d cur cur' : nth_error fs i = Some f -> is_element f = false -> (exists g, nth_error fs j = Some g /\ is_element g = true) ->
  dec_at fs j dec d cur = Ok cur' -> kept fs i cur cur'.
Proof.
  intros F E (g & G & Eg) H. unfold dec_at in H. rewrite G in H. destruct (nth_error cur j) as [c|]; [|discriminate]. apply bind_ok in H as (v & _ & Q). injection Q as <-.
  split; [apply set_nth_length|]. apply set_nth_other. intros ->. congruence.
Qed.
Lemma kept_trans fs i a b c : kept fs i a b -> kept fs i b c -> kept fs i a c.
Proof. intros (L1 & N1) (L2 & N2). split; congruence. Qed.
Lemma kept_refl fs i a : kept fs i a a.
Proof. split; reflexivity. Qed.
Lemma here_keeps fs i f parent local dec d cur cur' : nth_error fs i = Some f -> is_element f = false ->
  forall j, find_place parent local 0 fs = Some (Here j) -> dec_at fs j dec d cur = Ok cur' -> kept fs i cur cur'.
Proof.
  intros F E j P H. apply find_place_element in P as (g & G & _ & Eg). rewrite Nat.sub_0_r in G. eapply dec_at_keeps; eauto.
Qed.
Lemma inside_keeps fs i f p d : nth_error fs i = Some f -> is_element f = false -> forall ks cur cur', dec_inside fs p d ks cur = Ok cur' -> kept fs i cur cur'.
Proof.
  intros F E. induction ks as [|[s|sp l a inner dec] ks IH]; intros cur cur' H; cbn [dec_inside] in H; [injection H as <-; apply kept_refl|apply IH, H|].
  apply bind_ok in H as (c & C & H). apply IH in H. eapply kept_trans; [|exact H].
  destruct (find_place (Some p) l 0 fs) as [[j|q]|] eqn:P; [eapply here_keeps; eauto|injection C as <-; apply kept_refl|injection C as <-; apply kept_refl].
Qed.
Lemma kids_keep fs i f d : nth_error fs i = Some f -> is_element f = false -> forall ks cur cur', dec_kids fs d ks cur = Ok cur' -> kept fs i cur cur'.
Proof.
  intros F E. induction ks as [|[s|sp l a inner dec] ks IH]; intros cur cur' H; cbn [dec_kids] in H; [injection H as <-; apply kept_refl|apply IH, H|].
  apply bind_ok in H as (c & C & H). apply IH in H. eapply kept_trans; [|exact H].
  destruct (find_place None l 0 fs) as [[j|q]|] eqn:P; [eapply here_keeps; eauto|eapply inside_keeps; eauto|injection C as <-; apply kept_refl].
Qed.
Lemma chardata_keeps fs i f s : nth_error fs i = Some f -> is_chardata f = false -> forall cur, kept fs i cur (set_chardata fs s cur).
Proof.
  revert i. induction fs as [|g fs IH]; intros [|i] F E cur; try discriminate; destruct cur as [|c cur]; try apply kept_refl; cbn [set_chardata]; cbn [nth_error] in F.
  - injection F as ->. split; [|cbn [nth_error]; unfold is_chardata in E; destruct (xml_info f) as [[[] ? ? ?]|]; try reflexivity; discriminate].
    cbn [length]. f_equal. clear. revert cur. induction fs as [|g fs IH]; intros [|c cur]; cbn; auto.
  - destruct (IH i F E cur) as (L & N). split; [cbn [length]; f_equal; exact L|exact N].
Qed.
(** The last attribute xmlns. *)
Fixpoint xmlns_of (attrs : list (string * string)) (old : string) : string :=
  match attrs with
  | [] => old
  | (n, s) :: attrs' => xmlns_of attrs' (if String.eqb n "xmlns" then s else old)
  end.
Lemma attr_keeps fs i f n s : nth_error fs i = Some f -> is_attr n f = false -> forall cur cur', set_attr fs n s cur = Ok cur' -> kept fs i cur cur'.
Proof.
  assert (L : forall fs cur cur', set_attr fs n s cur = Ok cur' -> length cur' = length cur).
  { clear. induction fs as [|g fs IH]; intros [|c cur] cur' H; cbn [set_attr] in H; try (injection H as <-; reflexivity).
    apply bind_ok in H as (v & _ & H). apply bind_ok in H as (vs & V & Q). injection Q as <-. cbn [length]. f_equal. apply IH, V. }
  intros F E cur cur' H. split; [eapply L, H|]. clear L. revert i F cur cur' H.
  induction fs as [|g fs IH]; intros [|i] F cur cur' H; try discriminate; destruct cur as [|c cur]; cbn [set_attr] in H; try (injection H as <-; reflexivity); cbn [nth_error] in F;
    apply bind_ok in H as (v & Ev & H); apply bind_ok in H as (vs & V & Q); injection Q as <-; cbn [nth_error].
  - injection F as ->. unfold is_attr in E. destruct (xml_info f) as [[[] ? m ?]|]; try (injection Ev as <-; reflexivity). rewrite E in Ev. injection Ev as <-. reflexivity.
  - eapply IH; eauto.
Qed.
Lemma attr_sets fs i f n s : nth_error fs i = Some f -> is_attr n f = true -> f_ty f = TStr -> forall cur cur' c, nth_error cur i = Some c -> set_attr fs n s cur = Ok cur' ->
  nth_error cur' i = Some (VStr s).
Proof.
  intros F A T. revert i F. induction fs as [|g fs IH]; intros [|i] F cur cur' c0 C H; try discriminate; destruct cur as [|c cur]; try discriminate; cbn [set_attr nth_error] in *;
    apply bind_ok in H as (v & Ev & H); apply bind_ok in H as (vs & V & Q); injection Q as <-; cbn [nth_error].
  - injection F as ->. unfold is_attr in A. destruct (xml_info f) as [[[] ? m ?]|]; try discriminate A. rewrite A, T in Ev. injection Ev as <-. reflexivity.
  - eapply IH; eauto.
Qed.
Lemma attrs_xmlns fs i f : nth_error fs i = Some f -> (forall n, is_attr n f = String.eqb "xmlns" n) -> f_ty f = TStr ->
  forall attrs cur cur' old, nth_error cur i = Some (VStr old) -> set_attrs fs attrs cur = Ok cur' -> nth_error cur' i = Some (VStr (xmlns_of attrs old)).
Proof.
  intros F A T. induction attrs as [|(n & s) attrs IH]; intros cur cur' old C H; cbn [set_attrs xmlns_of] in *; [injection H as <-; exact C|].
  apply bind_ok in H as (c & Hc & H). eapply IH; [|exact H]. destruct (String.eqb_spec n "xmlns") as [->|N].
  - eapply attr_sets; eauto. rewrite A. apply String.eqb_refl.
  - assert (K : kept fs i cur c) by (eapply attr_keeps; eauto; rewrite A; apply String.eqb_neq; congruence). destruct K as (_ & ->). exact C.
Qed.
Lemma attrs_keep fs i f : nth_error fs i = Some f -> (forall n, is_attr n f = false) -> forall attrs cur cur', set_attrs fs attrs cur = Ok cur' -> kept fs i cur cur'.
Proof.
  intros F A. induction attrs as [|(n & s) attrs IH]; intros cur cur' H; cbn [set_attrs] in *; [injection H as <-; apply kept_refl|].
  apply bind_ok in H as (c & Hc & H). eapply kept_trans; [|eapply IH, H]. eapply attr_keeps; eauto.
Qed.

Definition xmlns_field : field := mkField "XMLNS" TStr "json:""-"" xml:""xmlns,attr""" false.
Definition spec_field : field := mkField "SpecVersion" (TRef "SpecVersion") "json:""specVersion"" xml:""-""" false.
Lemma bom_dec_struct {Lim : Limit} sp l a ks d b : xdec (XElem sp l a ks) (TRef "BOM") d (reify_BOM b) =
  if (limit <=? d)%N then Err XDepth else bind (dec_struct fields_BOM sp l a (map waiting ks) d (fields_of_val (reify_BOM b))) (fun vs => Ok (VStruct vs)).
Proof. reflexivity. Qed.
(** Whatever else the document says. *)
Lemma bom_values_kept {Lim : Limit} sp l a ks b vs : dec_struct fields_BOM sp l a (map waiting ks) 0 (fields_of_val (reify_BOM b)) = Ok vs ->
  l = "bom" /\ nth_error vs 1 = Some (VStr (xmlns_of a (BOM_XMLNS b))) /\ nth_error vs 4 = Some (VInt (BOM_SpecVersion b)) /\ nth_error vs 0 = Some (VStruct [VStr sp; VStr l]) /\ length vs = 21%nat.
Proof.
  intros H. unfold dec_struct in H. change (xml_name fields_BOM) with (Some "bom") in H. cbv iota in H. destruct (String.eqb_spec "bom" l) as [<-|]; [|discriminate]. cbn [negb] in H.
  apply bind_ok in H as (c1 & C1 & H). apply bind_ok in H as (c2 & C2 & Q). injection Q as <-.
  assert (F1 : nth_error fields_BOM 1 = Some xmlns_field) by reflexivity. assert (F4 : nth_error fields_BOM 4 = Some spec_field) by reflexivity.
  assert (F0 : nth_error fields_BOM 0 = Some (mkField "XMLName" (TRef "xml.Name") "json:""-"" xml:""bom""" false)) by reflexivity.
  set (s := chardata (map waiting ks)).
  set (start := set_name fields_BOM sp "bom" (fields_of_val (reify_BOM b))) in *.
  assert (S0 : nth_error start 0 = Some (VStruct [VStr sp; VStr "bom"])) by (destruct b; reflexivity).
  assert (S1 : nth_error start 1 = Some (VStr (BOM_XMLNS b))) by (destruct b; reflexivity).
  assert (S4 : nth_error start 4 = Some (VInt (BOM_SpecVersion b))) by (destruct b; reflexivity).
  assert (K : forall i f, nth_error fields_BOM i = Some f -> is_chardata f = false -> is_element f = false -> nth_error (set_chardata fields_BOM s c2) i = nth_error c1 i).
  { intros i f F C E. destruct (chardata_keeps fields_BOM i f s F C c2) as (_ & ->). destruct (kids_keep fields_BOM i f _ F E _ _ _ C2) as (_ & ->). reflexivity. }
  split; [reflexivity|]. split; [|split; [|split]].
  - etransitivity; [apply (K 1%nat _ F1 eq_refl eq_refl)|]. eapply attrs_xmlns; [exact F1| |reflexivity|exact S1|exact C1]. intros n. reflexivity.
  - etransitivity; [apply (K 4%nat _ F4 eq_refl eq_refl)|]. destruct (attrs_keep fields_BOM 4 spec_field F4 (fun n => eq_refl) _ _ _ C1) as (_ & ->). exact S4.
  - etransitivity; [apply (K 0%nat _ F0); reflexivity|]. destruct (attrs_keep fields_BOM 0 _ F0 (fun n => eq_refl) _ _ _ C1) as (_ & ->). exact S0.
  - destruct (chardata_keeps fields_BOM 1 xmlns_field s F1 eq_refl c2) as (L2 & _). destruct (kids_keep fields_BOM 1 xmlns_field _ F1 eq_refl _ _ _ C2) as (L1 & _).
    destruct (attrs_keep fields_BOM 4 spec_field F4 (fun n => eq_refl) _ _ _ C1) as (L0 & _). etransitivity; [exact L2|]. rewrite L1, L0. unfold start. destruct b. reflexivity.
Qed.
Lemma reflect_fields vs sp l n z : length vs = 21%nat -> nth_error vs 0 = Some (VStruct [VStr sp; VStr l]) -> nth_error vs 1 = Some (VStr n) -> nth_error vs 4 = Some (VInt z) ->
  BOM_XMLName (reflect_BOM (VStruct vs)) = mkXMLName sp l /\ BOM_XMLNS (reflect_BOM (VStruct vs)) = n /\ BOM_SpecVersion (reflect_BOM (VStruct vs)) = z.
Proof.
  intros L A B C. do 21 (destruct vs as [|? vs]; [discriminate|]). destruct vs; [|discriminate].
  cbn [nth_error] in A, B, C. injection A as ->. injection B as ->. injection C as ->. repeat split.
Qed.
Lemma decoded_name {Lim : Limit} entries x b c : bom_within entries x b = Ok c ->
  exists sp a ks, x = XElem sp "bom" a ks /\ BOM_XMLName c = mkXMLName sp "bom" /\ BOM_XMLNS c = xmlns_of a (BOM_XMLNS b) /\
    BOM_SpecVersion c = match_namespace entries (xmlns_of a (BOM_XMLNS b)) (BOM_SpecVersion b).
Proof.
  intros H. unfold bom_within in H. apply bind_ok in H as (v & V & Q). destruct x as [s|sp l a ks]; [discriminate V|].
  rewrite bom_dec_struct in V. change ((limit <=? 0)%N) with false in V. cbv iota in V. apply bind_ok in V as (vs & V & E). injection E as <-.
  apply bom_values_kept in V as (-> & V1 & V4 & V0 & L). destruct (reflect_fields vs _ _ _ _ L V0 V1 V4) as (R0 & R1 & R4). cbv zeta in Q. rewrite R1, R4 in Q. injection Q as <-.
  exists sp, a, ks. split; [reflexivity|]. split; [exact R0|]. split; [exact R1|reflexivity].
Qed.
