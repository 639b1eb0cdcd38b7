(** Proofs: a BOM that fits the target version is not changed by the conversion. *)
From Verif Require Import Base Types TypesFacts Proj ConvertModel ConvertSpec ConvertProofs ConvertReach ConvertReachProofs
  Within WithinFacts WithinProofs Stable.
From Coq Require Import Lia.
Local Open Scope string_scope.
Local Open Scope Z_scope.

Lemma str_since_id v sv x : introduced v sv "" x -> str_since v sv x = x.
Proof. intros H. unfold str_since, since. destruct (Z.leb_spec v sv); [reflexivity|]. symmetry. apply H. lia. Qed.
Lemma ptr_since_id {A} v sv (x y : option A) : introduced v sv None x -> (v <= sv -> y = x) -> ptr_since v sv y = x.
Proof. intros H E. unfold ptr_since, since. destruct (Z.leb_spec v sv); [auto|]. symmetry. apply H. lia. Qed.
Lemma if_present_inside {A} (P : A -> Prop) f (o : option A) : inside P o -> (forall x, P x -> f x = x) -> if_present f o = o.
Proof. destruct o; cbn; intros H1 H2; [rewrite H2; auto|reflexivity]. Qed.
Lemma map_id_in {A} (f : A -> A) l : (forall x, In x l -> f x = x) -> map f l = l.
Proof. induction l; cbn; intros H; [reflexivity|]. rewrite H by (left; reflexivity). f_equal. apply IHl. intros; apply H; right; assumption. Qed.
Lemma in_place_in {A} f (p : option (option (list A))) : (forall x, In x (members p) -> f x = x) -> in_place f p = p.
Proof. destruct p as [[l|]|]; cbn; intros H; try reflexivity. do 2 f_equal. apply map_id_in, H. Qed.
Lemma in_place_all {A} (P : A -> Prop) f (p : option (option (list A))) : all_in P p -> (forall x, P x -> f x = x) -> in_place f p = p.
Proof. intros H1 H2. apply in_place_in. intros x Hx. apply H2. exact (proj1 (all_in_forall _ _) H1 x Hx). Qed.
Lemma filter_true {A} (f : A -> bool) l : (forall x, In x l -> f x = true) -> filter f l = l.
Proof. induction l; cbn; intros H; [reflexivity|]. rewrite H by (left; reflexivity). f_equal. apply IHl. intros; apply H; right; assumption. Qed.
Lemma keep_id {A} (f : A -> bool) p : not_emptied p -> (forall x, In x (members p) -> f x = true) -> keep f p = p.
Proof.
  destruct p as [[l|]|]; cbn; intros H1 H2; try reflexivity. rewrite filter_true by exact H2. destruct l; [elim H1; reflexivity|reflexivity].
Qed.

(** The first entry of a value decides; the tables list no value twice. *)
Fixpoint distinct (e : enum) : bool :=
  match e with [] => true | (s, _) :: e' => negb (existsb (fun q => String.eqb s (fst q)) e') && distinct e' end.
Lemma in_enum_listed e s v sv : distinct e = true -> In (s, v) e -> in_enum e sv s = (v <=? sv).
Proof.
  induction e as [|[s' v'] e IH]; cbn [distinct in_enum]; intros Hd Hin; [destruct Hin|].
  apply Bool.andb_true_iff in Hd as [Hd1 Hd2]. destruct (String.eqb_spec s' s) as [->|Hne].
  - destruct Hin as [E|Hin]; [inversion E; reflexivity|]. apply Bool.negb_true_iff in Hd1. exfalso.
    assert (existsb (fun q => String.eqb s (fst q)) e = true); [|congruence]. apply existsb_exists. exists (s, v). split; [exact Hin|apply String.eqb_refl].
  - destruct Hin as [E|Hin]; [congruence|]. apply IH; assumption.
Qed.

Lemma listed_in_enum skip table schema sv s :
  distinct table = true -> agrees skip table schema = true -> ~ In s skip ->
  listed table s -> not_newer schema sv s -> in_enum table sv s = true.
Proof.
  intros Hd Ha Hs [v Hin] Hn. rewrite (in_enum_listed _ _ v) by assumption. apply Z.leb_le, Hn. eapply agrees_in; eassumption.
Qed.

Lemma in_open_enum_ok table schema v sv s :
  agrees [] table schema = true -> v <= sv -> not_newer schema sv s -> in_open_enum table v sv s = true.
Proof.
  intros Ha Hv Hn. destruct (in_open_enum table v sv s) eqn:E; [reflexivity|]. exfalso.
  assert (Hx : exists w, In (s, w) table /\ sv < w).
  { clear Ha. revert E. induction table as [|[s' w] e IH]; cbn [in_open_enum]; intros E; [apply Z.leb_gt in E; lia|].
    destruct (String.eqb_spec s' s) as [->|Hne].
    - exists w. split; [left; reflexivity|]. apply Z.leb_gt, E.
    - destruct (IH E) as (u & Hu & Hl). exists u. split; [right; exact Hu|exact Hl]. }
  destruct Hx as (w & Hw & Hl). apply (agrees_in _ _ _ _ _ Ha) in Hw; [|intros []]. specialize (Hn _ Hw). lia.
Qed.

Ltac same :=
  projs; try reflexivity;
  first
  [ apply str_since_id; assumption
  | apply ptr_since_id; [assumption|intros; reflexivity]
  | idtac ].

Lemma contact_same sv c : within_OrganizationalContact sv c -> contact_in sv c = c.
Proof. intros (H1 & H2 & H3 & H4). unfold contact_in. apply ext_OrganizationalContact; same. Qed.
Lemma entity_same sv o : within_OrganizationalEntity sv o -> entity_in sv o = o.
Proof.
  intros (H1 & H2 & H3 & H4 & H5 & H6 & H7). unfold entity_in. apply ext_OrganizationalEntity; same.
  eapply in_place_all; [exact H7|apply contact_same].
Qed.
Lemma data_same sv d : stable_data sv d -> data_in sv d = d.
Proof.
  intros H. unfold data_in. destruct (Z.lt_ge_cases sv v1_6) as [L|L].
  - destruct (H L) as (H1 & H2 & H3 & H4 & H5). apply ext_DataClassification; projs; try reflexivity;
      rewrite ?str_since_old, ?ptr_since_old by exact L; auto.
  - apply ext_DataClassification; projs; try reflexivity; rewrite ?str_since_new, ?ptr_since_new by exact L; reflexivity.
Qed.
Lemma reference_same sv r : v1_1 <= sv -> within_ExternalReference sv r -> extref_in sv r = r.
Proof.
  intros H (H1 & H2 & H3 & H4 & H5 & H6 & H7 & H8). unfold extref_in. apply ext_ExternalReference; same.
  unfold open_enum_or. rewrite (in_open_enum_ok _ ExternalReferenceType_values); auto.
Qed.
Lemma references_same v sv p : v1_1 <= v -> introduced v sv None p -> all_in (within_ExternalReference sv) p ->
  ptr_since v sv (in_place (extref_in sv) p) = p.
Proof.
  intros Hv H1 H2. apply ptr_since_id; [exact H1|]. intros L. eapply in_place_all; [exact H2|]. intros; apply reference_same; [lia|assumption].
Qed.
Lemma hashes_same sv p : stable_hashes p -> all_in (within_Hash sv) p -> hashes_in sv p = p.
Proof.
  intros [H1 H2] H3. unfold hashes_in. apply keep_id; [exact H1|]. intros x Hx.
  apply (listed_in_enum [] _ HashAlgorithm_values); [reflexivity|reflexivity|intros []| |].
  - exact (proj1 (all_in_forall _ _) H2 x Hx).
  - exact (proj1 (all_in_forall _ _) H3 x Hx).
Qed.
Lemma party_same sv p : within_OrganizationalEntityOrContact sv p -> party_in sv p = p.
Proof.
  intros (H1 & H2 & H3 & H4). unfold party_in. apply ext_OrganizationalEntityOrContact; same.
  eapply if_present_inside; [exact H2|apply entity_same].
Qed.
Lemma licensing_same sv l : within_Licensing sv l -> licensing_in sv l = l.
Proof.
  intros (H1 & H2 & H3 & H4 & H5 & H6 & H7 & H8). unfold licensing_in. apply ext_Licensing; same;
    (eapply if_present_inside; [eassumption|apply party_same]).
Qed.
Lemma license_same sv l : within_License sv l -> license_in sv l = l.
Proof.
  intros (H1 & H2 & H3 & H4 & H5 & H6 & H7 & H8 & H9). unfold license_in. apply ext_License; same.
  apply ptr_since_id; [exact H6|]. intros _. eapply if_present_inside; [exact H7|apply licensing_same].
Qed.
Lemma license_choice_same sv c : within_LicenseChoice sv c -> license_choice_in sv c = c.
Proof.
  intros (H1 & H2 & H3 & H4 & H5 & H6 & H7 & H8 & H9 & H10). unfold license_choice_in. apply ext_LicenseChoice; same.
  eapply if_present_inside; [exact H1|apply license_same].
Qed.
Lemma licenses_same sv p : stable_licenses sv p -> all_in (within_LicenseChoice sv) p -> licenses_in sv p = p.
Proof.
  intros H1 H2. unfold licenses_in.
  assert (E : (if sv <? v1_1 then keep named_license p else p) = p).
  { destruct (Z.ltb_spec sv v1_1) as [L|L]; [|reflexivity]. destruct (H1 L) as [H3 H4]. apply keep_id; [exact H3|].
    intros x Hx. destruct (proj1 (all_in_forall _ _) H4 x Hx) as (l & El & Hl). unfold named_license. rewrite El.
    apply Bool.negb_true_iff, Bool.andb_false_iff. destruct Hl as [Hl|Hl]; [left|right]; apply String.eqb_neq, Hl. }
  rewrite E. eapply in_place_all; [exact H2|apply license_choice_same].
Qed.

Lemma identity_same_1_5 sv i : sv < v1_6 -> within_EvidenceIdentity sv i -> identity_in_1_5 i = i.
Proof.
  intros L (H1 & H2 & H3 & H4 & H5 & H6). unfold identity_in_1_5. apply ext_EvidenceIdentity; same. symmetry. exact (H4 L).
Qed.
Lemma evidence_same sv e : within_Evidence sv e -> evidence_in sv e = e.
Proof.
  intros (H1 & H2 & H3 & H4 & H5 & H6 & H7 & H8 & H9 & H10). unfold evidence_in. apply ext_Evidence; same.
  - apply ptr_since_id; [exact H1|]. intros L5. destruct (Z.ltb_spec sv v1_6) as [L|L]; [|reflexivity].
    destruct (Evidence_Identity e) as [i|]; [|reflexivity]. cbn in H2. destruct H2 as (I1 & I2 & I3 & I4).
    unfold identity_choice_in_1_5. rewrite (I3 L). f_equal. apply ext_EvidenceIdentityChoice; projs; [|symmetry; exact (I3 L)].
    eapply if_present_inside; [exact I2|]. intros; eapply identity_same_1_5; eassumption.
  - apply ptr_since_id; [exact H3|]. intros L5. destruct (Z.ltb_spec sv v1_6) as [L|L]; [|reflexivity].
    eapply in_place_all; [exact H4|]. intros o (O1 & O2 & O3 & O4 & O5 & O6). unfold occurrence_in_1_5.
    apply ext_EvidenceOccurrence; projs; try reflexivity; symmetry; auto.
  - destruct (sv <? v1_5) eqn:E; [reflexivity|]. apply licenses_same; [|exact H8]. intros L. apply Z.ltb_ge in E. vlia.
Qed.
Lemma model_card_same sv m : within_MLModelCard sv m -> model_card_in sv m = m.
Proof.
  intros (H1 & H2 & H3 & H4 & H5 & H6 & H7). unfold model_card_in. apply ext_MLModelCard; same.
  eapply if_present_inside; [exact H7|]. intros c (C1 & C2 & C3 & C4 & C5 & C6 & C7 & C8 & C9). unfold considerations_in.
  apply ext_MLModelCardConsiderations; same.
Qed.
Ltac hyps := repeat match goal with H : _ /\ _ |- _ => destruct H end.
Lemma algorithm_same sv a : v1_6 <= sv -> within_CryptoAlgorithmProperties sv a -> algorithm_in sv a = a.
Proof.
  intros L H. unfold within_CryptoAlgorithmProperties in H; hyps. unfold algorithm_in. apply ext_CryptoAlgorithmProperties; same.
  unfold open_enum_or. rewrite (in_open_enum_ok _ CryptoPrimitive_values); auto.
Qed.
Lemma certificate_same sv a : within_CertificateProperties sv a -> certificate_in sv a = a.
Proof. intros H. unfold within_CertificateProperties in H; hyps. unfold certificate_in. apply ext_CertificateProperties; same. Qed.
Lemma material_same sv a : within_RelatedCryptoMaterialProperties sv a -> material_in sv a = a.
Proof. intros H. unfold within_RelatedCryptoMaterialProperties in H; hyps. unfold material_in. apply ext_RelatedCryptoMaterialProperties; same. Qed.
Lemma cipher_suite_same sv a : within_CipherSuite sv a -> cipher_suite_in sv a = a.
Proof. intros H. unfold within_CipherSuite in H; hyps. unfold cipher_suite_in. apply ext_CipherSuite; same. Qed.
Lemma protocol_same sv a : v1_6 <= sv -> within_CryptoProtocolProperties sv a -> protocol_in sv a = a.
Proof.
  intros L H. unfold within_CryptoProtocolProperties in H; hyps. unfold protocol_in. apply ext_CryptoProtocolProperties; same.
  - unfold open_enum_or. rewrite (in_open_enum_ok _ CryptoProtocolType_values); auto.
  - eapply in_place_all; [eassumption|apply cipher_suite_same].
Qed.
Lemma crypto_same sv c : v1_6 <= sv -> within_CryptoProperties sv c -> crypto_in sv c = c.
Proof.
  intros L H. unfold within_CryptoProperties in H; hyps. unfold crypto_in. apply ext_CryptoProperties; same;
    (eapply if_present_inside; [eassumption|]).
  - intros; apply algorithm_same; assumption.
  - apply certificate_same.
  - apply material_same.
  - intros; apply protocol_same; assumption.
Qed.

Definition stable_component_ (sv : SpecVersion) (c : Component) : Prop :=
  listed component_types (Component_Type c) /\
  (Component_Scope c = "" \/ listed scopes (Component_Scope c) /\ (sv < v1_2 -> Component_Scope c <> "excluded")) /\
  stable_hashes (Component_Hashes c) /\
  stable_licenses sv (Component_Licenses c) /\
  (sv < v1_4 -> Component_Version c <> "") /\
  (sv < v1_1 -> Component_Modified c <> None) /\
  inside (stable_pedigree (stable_component sv)) (Component_Pedigree c) /\
  all_in (stable_component sv) (Component_Components c).
Lemma stable_component_fix sv c : stable_component sv c = stable_component_ sv c.
Proof. destruct c; reflexivity. Qed.

Lemma component_same sv c : within_Component sv c -> stable_component sv c -> component_in sv c = c.
Proof.
  induction c as [c IH] using component_induction. rewrite stable_component_fix, within_Component_fix, component_in_fix.
  intros H (S1 & S2 & S3 & S4 & S5 & S6 & S7 & S8). unfold within_Component_ in H; hyps. unfold component_in_.
  apply ext_Component; same.
  - unfold enum_or. rewrite (listed_in_enum [] _ ComponentType_values); [reflexivity|reflexivity|reflexivity|intros []|exact S1|assumption].
  - destruct ((sv <? v1_4) && String.eqb (Component_Version c) "")%bool eqn:E; [|reflexivity]. exfalso.
    apply Bool.andb_true_iff in E as [E1 E2]. apply Z.ltb_lt in E1. apply String.eqb_eq in E2. exact (S5 E1 E2).
  - unfold enum_or. destruct (in_enum scopes sv (Component_Scope c)) eqn:E; [reflexivity|]. destruct S2 as [S2|[S2 S2']]; [congruence|].
    exfalso. destruct (String.eqb_spec (Component_Scope c) "excluded") as [Ee|Ee].
    + rewrite Ee in *. change (in_enum scopes sv "excluded") with (v1_2 <=? sv) in E. apply Z.leb_gt in E. apply S2'; [vlia|reflexivity].
    + rewrite (listed_in_enum ["excluded"] _ Scope_values) in E; try reflexivity; try assumption; [discriminate|].
      intros [Hx|[]]. congruence.
  - apply hashes_same; assumption.
  - apply licenses_same; assumption.
  - destruct (Component_Modified c); [reflexivity|]. destruct (Z.ltb_spec sv v1_1) as [L|L]; [elim (S6 L); reflexivity|reflexivity].
  - apply ptr_since_id; [assumption|]. intros L.
    destruct (Component_Pedigree c) as [p|] eqn:Ep; [|reflexivity]. cbn [if_present inside] in *. f_equal.
    destruct S7 as (T1 & T2 & T3).
    match goal with H : within_Pedigree _ _ _ |- _ => destruct H as (P1 & P2 & P3 & P4 & P5 & P6 & P7 & P8 & P9 & P10 & P11) end.
    unfold pedigree_in. apply ext_Pedigree; same; apply in_place_in; intros x Hx;
      (apply IH; [right; exists p; auto| |]; (eapply all_in_forall; [|exact Hx]; assumption)).
  - apply references_same; [vlia|assumption|assumption].
  - apply in_place_in. intros x Hx. apply IH; [left; exact Hx| |].
    + eapply all_in_forall; [|exact Hx]. assumption.
    + eapply all_in_forall; [|exact Hx]. assumption.
  - apply ptr_since_id; [assumption|]. intros L. eapply if_present_inside; [eassumption|apply evidence_same].
  - apply ptr_since_id; [assumption|]. intros L. eapply if_present_inside; [eassumption|apply model_card_same].
  - apply ptr_since_id; [assumption|]. intros L. eapply if_present_inside; [eassumption|]. intros; apply crypto_same; assumption.
Qed.

Lemma service_same sv s : v1_2 <= sv -> within_Service sv s -> stable_service sv s -> service_in sv s = s.
Proof.
  intros L0. induction s as [s IH] using service_induction. rewrite within_Service_fix, service_in_fix. intros H S.
  assert (S' : all_in (stable_data sv) (Service_Data s) /\ all_in (stable_service sv) (Service_Services s)) by (destruct s; exact S).
  clear S. destruct S' as [S1 S2]. unfold within_Service_ in H; hyps. unfold service_in_. apply ext_Service; same.
  - eapply if_present_inside; [eassumption|apply entity_same].
  - eapply in_place_all; [exact S1|apply data_same].
  - eapply in_place_all; [eassumption|]. intros; apply reference_same; [vlia|assumption].
  - apply in_place_in. intros x Hx. apply IH; [exact Hx| |]; (eapply all_in_forall; [|exact Hx]; assumption).
Qed.

Lemma tool_same sv t : stable_hashes (Tool_Hashes t) -> within_Tool sv t -> tool_in sv t = t.
Proof.
  intros S H. unfold within_Tool in H; hyps. unfold tool_in. apply ext_Tool; same.
  - apply hashes_same; assumption.
  - apply references_same; [vlia|assumption|assumption].
Qed.

Lemma in_place_two {A} (P Q : A -> Prop) f (p : option (option (list A))) :
  all_in P p -> all_in Q p -> (forall x, P x -> Q x -> f x = x) -> in_place f p = p.
Proof.
  intros H1 H2 H3. apply in_place_in. intros x Hx.
  apply H3; [exact (proj1 (all_in_forall _ _) H1 x Hx)|exact (proj1 (all_in_forall _ _) H2 x Hx)].
Qed.
Lemma if_present_two {A} (P Q : A -> Prop) f (o : option A) :
  inside P o -> inside Q o -> (forall x, P x -> Q x -> f x = x) -> if_present f o = o.
Proof. destruct o; cbn; intros H1 H2 H3; [rewrite H3; auto|reflexivity]. Qed.

Lemma tools_same sv t : within_ToolsChoice sv t -> stable_tools t -> tools_in sv t = t.
Proof.
  intros (H1 & H2 & H3 & H4 & H5 & H6) S. unfold tools_in.
  assert (Et : in_place (tool_in sv) (ToolsChoice_Tools t) = ToolsChoice_Tools t)
    by (eapply in_place_two; [exact S|exact H2|apply tool_same]).
  destruct (Z.ltb_spec sv v1_5) as [L|L].
  - unfold all_tools. rewrite (H3 L), (H5 L). cbn [members map]. rewrite !app_nil_r. apply ext_ToolsChoice; projs.
    + destruct (ToolsChoice_Tools t) as [[[|x l]|]|]; cbn [members] in *; try reflexivity. exact Et.
    + symmetry. exact (H3 L).
    + symmetry. exact (H5 L).
  - apply ext_ToolsChoice; projs; [exact Et|reflexivity|]. eapply in_place_all; [exact H6|]. intros s Hs.
    unfold tool_service_in. rewrite within_Service_fix in Hs. unfold within_Service_ in Hs.
    assert (E : if_present (entity_in sv) (Service_Provider s) = Service_Provider s)
      by (eapply if_present_inside; [apply Hs|apply entity_same]).
    rewrite E. destruct s; reflexivity.
Qed.

Lemma vulnerability_same sv v : within_Vulnerability sv v -> stable_vulnerability v -> vulnerability_in sv v = v.
Proof.
  intros H [S1 S2]. unfold within_Vulnerability in H; hyps. unfold vulnerability_in. apply ext_Vulnerability; same.
  - apply (in_place_two _ (within_VulnerabilityRating sv)  _ _ S1); [assumption|]. intros r Sr (R1 & R2 & R3 & R4 & R5 & R6 & R7). unfold rating_in.
    apply ext_VulnerabilityRating; same. unfold enum_or.
    rewrite (listed_in_enum [] _ ScoringMethod_values); [reflexivity|reflexivity|reflexivity|intros []|exact Sr|assumption].
  - apply (if_present_inside (within_Credits sv)); [assumption|]. intros c (C1 & C2 & C3 & C4). unfold credits_in. apply ext_Credits; same.
    + apply (in_place_all (within_OrganizationalEntity sv)); [assumption|apply entity_same].
    + apply (in_place_all (within_OrganizationalContact sv)); [assumption|apply contact_same].
  - apply (if_present_two (within_ToolsChoice sv) stable_tools); [assumption|assumption|]. intros; apply tools_same; assumption.
  - apply (if_present_inside (within_VulnerabilityAnalysis sv)); [assumption|]. intros c (C1 & C2 & C3 & C4 & C5 & C6). unfold analysis_in.
    apply ext_VulnerabilityAnalysis; same.
Qed.

Lemma composition_same sv c : v1_3 <= sv -> within_Composition sv c -> composition_in sv c = c.
Proof.
  intros L H. unfold within_Composition in H; hyps. unfold composition_in. apply ext_Composition; same.
  unfold open_enum_or. rewrite (in_open_enum_ok _ CompositionAggregate_values); auto.
Qed.

Lemma annotation_same sv a : v1_5 <= sv -> within_Annotation sv a ->
  inside (fun x => sv < v1_6 -> inside (stable_service sv) (Annotator_Service x)) (Annotation_Annotator a) -> annotation_in sv a = a.
Proof.
  intros L H S. unfold within_Annotation in H; hyps. unfold annotation_in. apply ext_Annotation; same.
  eapply (if_present_two (within_Annotator sv)); [assumption|exact S|]. intros x (X1 & X2 & X3 & X4 & X5 & X6 & X7 & X8) Sx. unfold annotator_in.
  destruct (Z.ltb_spec sv v1_6) as [L6|L6]; [|reflexivity]. apply ext_Annotator; same.
  - apply (if_present_inside (within_OrganizationalEntity sv)); [assumption|apply entity_same].
  - eapply if_present_two; [exact X8|exact (Sx L6)|]. intros; apply service_same; [vlia|assumption|assumption].
Qed.

Lemma metadata_same sv m : within_Metadata sv m -> inside stable_tools (Metadata_Tools m) -> inside (stable_component sv) (Metadata_Component m) ->
  metadata_in sv m = m.
Proof.
  intros H S1 S2. unfold within_Metadata in H; hyps. unfold metadata_in. apply ext_Metadata; same.
  - apply (if_present_two (within_ToolsChoice sv) stable_tools); [assumption|assumption|]. intros; apply tools_same; assumption.
  - apply (in_place_all (within_OrganizationalContact sv)); [assumption|apply contact_same].
  - apply (if_present_two (within_Component sv) (stable_component sv)); [assumption|assumption|]. intros; apply component_same; assumption.
  - apply (if_present_inside (within_OrganizationalEntity sv)); [assumption|apply entity_same].
  - apply (if_present_inside (within_OrganizationalEntity sv)); [assumption|apply entity_same].
  - apply ptr_since_id; [assumption|]. intros L. apply licenses_same; [|assumption]. intros L1. vlia.
Qed.

Lemma convert_same sv b : within_BOM sv b -> stable sv b -> convert sv b = marked sv b.
Proof.
  intros H (S1 & S2 & S3 & S4 & S5). rewrite convert_spec. unfold within_BOM in H; hyps.
  unfold bom_in, marked. apply ext_BOM; unfold set_BOM_SpecVersion, set_BOM_JSONSchema, set_BOM_XMLNS; same.
  - apply ptr_since_id; [assumption|]. intros L. eapply (if_present_two (within_Metadata sv)); [assumption|exact S1|]. intros m Hm [T1 T2]. apply metadata_same; assumption.
  - eapply (in_place_two (within_Component sv)); [assumption|exact S2|]. intros; apply component_same; assumption.
  - apply ptr_since_id; [assumption|]. intros L. eapply (in_place_two (within_Service sv)); [assumption|exact S3|]; intros; apply service_same; assumption.
  - apply references_same; [vlia|assumption|assumption].
  - apply ptr_since_id; [assumption|]. intros L. apply (in_place_all (within_Dependency sv)); [assumption|]. intros d (D1 & D2 & D3). unfold dependency_in.
    apply ext_Dependency; same.
  - apply ptr_since_id; [assumption|]. intros L. apply (in_place_all (within_Composition sv)); [assumption|]. intros; apply composition_same; assumption.
  - apply ptr_since_id; [assumption|]. intros L. eapply (in_place_two (within_Vulnerability sv)); [assumption|exact S4|]. intros; apply vulnerability_same; assumption.
  - apply ptr_since_id; [assumption|]. intros L. eapply (in_place_two (within_Annotation sv)); [assumption|exact S5|]. intros; apply annotation_same; assumption.
  - apply ptr_since_id; [assumption|]. intros L. apply (if_present_inside (within_Definitions sv)); [assumption|]. intros d (D1 & D2 & D3 & D4). unfold definitions_in.
    apply ext_Definitions; same.
Qed.

(** From 1.7 on everything but the formulation section is defined. *)
Lemma within_BOM_1_7 sv b : v1_7 <= sv -> BOM_Formulation b = None -> within_BOM sv b.
Proof.
  intros H E. unfold within_BOM. rewrite E. conjs; try exact I; try (apply introduced_new; vlia); try (intros _; reflexivity);
    match goal with |- all_in _ _ => apply all_in_new; intros | |- _ => apply inside_new; intros end;
    first [ apply within_Metadata_new | apply within_Component_new | apply within_Service_new | apply within_ExternalReference_new
          | apply within_Dependency_new | apply within_Composition_new | apply within_Property_new | apply within_Vulnerability_new
          | apply within_Annotation_new | apply within_Declarations_new | apply within_Definitions_new | apply within_Citation_new
          | apply within_JSFSignature_new ]; vlia.
Qed.

Lemma convert_same_1_7 sv b : v1_7 <= sv -> stable sv b -> convert sv b = marked sv b.
Proof.
  intros H S. set (b' := set_BOM_Formulation None b).
  assert (E : convert sv b' = marked sv b').
  { apply convert_same; [apply within_BOM_1_7; [exact H|destruct b; reflexivity]|]. destruct b; exact S. }
  rewrite convert_spec in E |- *.
  transitivity (set_BOM_Formulation (BOM_Formulation b) (bom_in sv b')).
  - unfold b'. destruct b. unfold bom_in, set_BOM_Formulation. projs. f_equal. apply ptr_since_new. vlia.
  - rewrite E. unfold b'. destruct b. reflexivity.
Qed.

(** ** The conditions are exact: where they fail, something changes *)

Lemma in_place_fix {A} f (p : option (option (list A))) : in_place f p = p -> forall x, In x (members p) -> f x = x.
Proof.
  destruct p as [[l|]|]; cbn [in_place members]; intros E x; [|intros []|intros []]. injection E as E. revert E x.
  induction l as [|y l IH]; cbn; intros E x; [intros []|]. injection E as E1 E2. intros [<-|Hx]; auto.
Qed.
Lemma in_place_fix_all {A} (P Q : A -> Prop) f (p : option (option (list A))) :
  all_in P p -> in_place f p = p -> (forall x, In x (members p) -> P x -> f x = x -> Q x) -> all_in Q p.
Proof.
  intros HP E H. apply all_in_forall. intros x Hx. apply H; [exact Hx| |apply (in_place_fix f p E x Hx)].
  exact (proj1 (all_in_forall _ _) HP x Hx).
Qed.
Lemma if_present_fix {A} (P Q : A -> Prop) f (o : option A) :
  inside P o -> if_present f o = o -> (forall x, P x -> f x = x -> Q x) -> inside Q o.
Proof. destruct o; cbn; intros H1 H2 H3; [|exact I]. injection H2 as H2. auto. Qed.
Lemma ptr_since_fix {A} v sv (x y : option A) : introduced v sv None x -> ptr_since v sv y = x -> x = None \/ v <= sv /\ y = x.
Proof.
  intros H E. unfold ptr_since, since in E. destruct (Z.leb_spec v sv); [right; auto|left; apply H; lia].
Qed.
Lemma filter_short {A} (f : A -> bool) l : (List.length (filter f l) <= List.length l)%nat.
Proof. induction l; cbn; [lia|]. destruct (f a); cbn; lia. Qed.
Lemma filter_full {A} (f : A -> bool) l : List.length (filter f l) = List.length l -> forall x, In x l -> f x = true.
Proof.
  induction l as [|y l IH]; cbn; intros E x; [intros []|]. pose proof (filter_short f l). destruct (f y) eqn:Ey.
  - cbn in E. intros [<-|Hx]; [exact Ey|]. apply IH; [lia|exact Hx].
  - lia.
Qed.
(** A list that survives filtering and mapping with its length. *)
Lemma kept_all {A} (g : A -> A) (f : A -> bool) p : in_place g (keep f p) = p -> not_emptied p /\ forall x, In x (members p) -> f x = true.
Proof.
  destruct p as [[l|]|]; cbn [keep members].
  - intros E. assert (E' : l <> [] /\ map g (filter f l) = l).
    { destruct (filter f l) as [|y k] eqn:Ef; cbn [non_empty in_place] in E; [discriminate|]. injection E as E. split; [|exact E].
      intros ->. discriminate Ef. }
    destruct E' as [Hne E']. split.
    + intros H. injection H as H. contradiction.
    + apply filter_full. rewrite <- (map_length g). f_equal. exact E'.
  - intros _. split; [discriminate|intros x []].
  - intros _. split; [discriminate|intros x []].
Qed.
Lemma keep_as_in_place {A} (f : A -> bool) p : keep f p = in_place (fun x => x) (keep f p).
Proof. destruct (keep f p) as [[l|]|]; cbn; [rewrite map_id|..]; reflexivity. Qed.

Lemma in_enum_is_listed e sv s : in_enum e sv s = true -> listed e s.
Proof. intros H. apply in_enum_some in H as (v & H & _). exists v; exact H. Qed.
Lemma enum_or_fix fb e sv s : enum_or fb e sv s = s -> s = fb \/ in_enum e sv s = true.
Proof. unfold enum_or. destruct (in_enum e sv s); auto. Qed.

Lemma hashes_fix sv p : hashes_in sv p = p -> stable_hashes p.
Proof.
  intros E. unfold hashes_in in E. rewrite keep_as_in_place in E. apply kept_all in E as [H1 H2]. split; [exact H1|].
  apply all_in_forall. intros x Hx. apply (in_enum_is_listed _ sv). exact (H2 x Hx).
Qed.
Lemma licenses_fix sv p : licenses_in sv p = p -> stable_licenses sv p.
Proof.
  intros E L. unfold licenses_in in E. apply Z.ltb_lt in L. rewrite L in E. apply kept_all in E as [H1 H2]. split; [exact H1|].
  apply all_in_forall. intros c Hc. apply named_license_true, H2, Hc.
Qed.

Lemma component_fix sv c : v1_0 <= sv -> within_Component sv c -> component_in sv c = c -> stable_component sv c.
Proof.
  intros L0. induction c as [c IH] using component_induction. rewrite stable_component_fix, within_Component_fix, component_in_fix.
  intros H E. unfold stable_component_. unfold within_Component_ in H.
  conjs.
  - apply (f_equal Component_Type) in E. unfold component_in_ in E. projs_in E. apply enum_or_fix in E as [E|E].
    + rewrite E. exists v1_0. left; reflexivity.
    + apply (in_enum_is_listed _ sv), E.
  - apply (f_equal Component_Scope) in E. unfold component_in_ in E. projs_in E. apply enum_or_fix in E as [E|E]; [left; exact E|right].
    split; [apply (in_enum_is_listed _ sv), E|]. intros L Ee. rewrite Ee in E. change (in_enum scopes sv "excluded") with (v1_2 <=? sv) in E.
    apply Z.leb_le in E. lia.
  - apply (hashes_fix sv). exact (f_equal Component_Hashes E).
  - apply licenses_fix. exact (f_equal Component_Licenses E).
  - intros L Ev. apply (f_equal Component_Version) in E. unfold component_in_ in E. projs_in E. apply Z.ltb_lt in L. rewrite L, Ev in E. discriminate E.
  - intros L Ev. apply (f_equal Component_Modified) in E. unfold component_in_ in E. projs_in E. apply Z.ltb_lt in L. rewrite L, Ev in E. discriminate E.
  - apply (f_equal Component_Pedigree) in E. unfold component_in_ in E. projs_in E.
    apply ptr_since_fix in E; [|apply H]. destruct E as [E|[L E]]; [rewrite E; exact I|].
    assert (HP : inside (within_Pedigree (within_Component sv) sv) (Component_Pedigree c)) by apply H.
    destruct (Component_Pedigree c) as [p|] eqn:Ep; [|exact I]. cbn [inside if_present] in *. injection E as E.
    destruct HP as (_ & P1 & _ & P2 & _ & P3 & _). unfold stable_pedigree. conjs.
    + eapply in_place_fix_all; [exact P1|exact (f_equal Pedigree_Ancestors E)|]. intros x Hx; apply IH; right; exists p; auto.
    + eapply in_place_fix_all; [exact P2|exact (f_equal Pedigree_Descendants E)|]. intros x Hx; apply IH; right; exists p; auto.
    + eapply in_place_fix_all; [exact P3|exact (f_equal Pedigree_Variants E)|]. intros x Hx; apply IH; right; exists p; auto.
  - apply (in_place_fix_all (within_Component sv) _ (component_in sv)); [apply H|exact (f_equal Component_Components E)|].
    intros x Hx; apply IH; left; exact Hx.
Qed.

Lemma data_fix sv d : data_in sv d = d -> stable_data sv d.
Proof.
  intros E L. unfold data_in in E. rewrite !str_since_old, !ptr_since_old in E by exact L. rewrite <- E. projs. auto.
Qed.

Lemma service_fix sv s : within_Service sv s -> service_in sv s = s -> stable_service sv s.
Proof.
  induction s as [s IH] using service_induction. rewrite within_Service_fix, service_in_fix. intros H E. unfold within_Service_ in H.
  assert (S : all_in (stable_data sv) (Service_Data s) /\ all_in (stable_service sv) (Service_Services s)); [|destruct s; exact S].
  split.
  - eapply (in_place_fix_all (within_DataClassification sv)); [apply H|exact (f_equal Service_Data E)|]. intros x _ _; apply data_fix.
  - eapply (in_place_fix_all (within_Service sv)); [apply H|exact (f_equal Service_Services E)|]. intros x Hx; apply IH, Hx.
Qed.

Lemma tools_fix sv t : within_ToolsChoice sv t -> tools_in sv t = t -> stable_tools t.
Proof.
  intros (H1 & H2 & H3 & H4 & H5 & H6) E. apply (f_equal ToolsChoice_Tools) in E. unfold tools_in in E.
  assert (E' : in_place (tool_in sv) (ToolsChoice_Tools t) = ToolsChoice_Tools t).
  { destruct (Z.ltb_spec sv v1_5) as [L|L]; projs_in E; [|exact E]. unfold all_tools in E. rewrite (H3 L), (H5 L) in E. cbn [members map] in E.
    rewrite !app_nil_r in E. destruct (ToolsChoice_Tools t) as [[[|x l]|]|]; cbn [members] in *; auto. }
  eapply in_place_fix_all; [exact H2|exact E'|]. intros x _ _ Ex. apply (hashes_fix sv). exact (f_equal Tool_Hashes Ex).
Qed.

Lemma convert_fix sv b : v1_0 <= sv -> within_BOM sv b -> convert sv b = marked sv b -> stable sv b.
Proof.
  intros L0 H. rewrite convert_spec. intros E.
  assert (EM : BOM_Metadata (bom_in sv b) = BOM_Metadata b) by (rewrite E; destruct b; reflexivity).
  assert (EC : BOM_Components (bom_in sv b) = BOM_Components b) by (rewrite E; destruct b; reflexivity).
  assert (ES : BOM_Services (bom_in sv b) = BOM_Services b) by (rewrite E; destruct b; reflexivity).
  assert (EV : BOM_Vulnerabilities (bom_in sv b) = BOM_Vulnerabilities b) by (rewrite E; destruct b; reflexivity).
  assert (EA : BOM_Annotations (bom_in sv b) = BOM_Annotations b) by (rewrite E; destruct b; reflexivity).
  clear E. unfold bom_in in *. projs_in EM. projs_in EC. projs_in ES. projs_in EV. projs_in EA. unfold within_BOM in H. unfold stable. conjs.
  - apply ptr_since_fix in EM; [|apply H]. destruct EM as [EM|[L EM]]; [rewrite EM; exact I|].
    apply (if_present_fix (within_Metadata sv) _ (metadata_in sv)); [apply H|exact EM|]. intros m Hm Em. unfold within_Metadata in Hm. split.
    + apply (if_present_fix (within_ToolsChoice sv) _ (tools_in sv)); [apply Hm|exact (f_equal Metadata_Tools Em)|]. intros; eapply tools_fix; eassumption.
    + apply (if_present_fix (within_Component sv) _ (component_in sv)); [apply Hm|exact (f_equal Metadata_Component Em)|].
      intros; apply component_fix; assumption.
  - apply (in_place_fix_all (within_Component sv) _ (component_in sv)); [apply H|exact EC|]. intros; apply component_fix; assumption.
  - apply ptr_since_fix in ES; [|apply H]. destruct ES as [ES|[L ES]]; [rewrite ES; exact I|].
    apply (in_place_fix_all (within_Service sv) _ (service_in sv)); [apply H|exact ES|]. intros; apply service_fix; assumption.
  - apply ptr_since_fix in EV; [|apply H]. destruct EV as [EV|[L EV]]; [rewrite EV; exact I|].
    apply (in_place_fix_all (within_Vulnerability sv) _ (vulnerability_in sv)); [apply H|exact EV|]. intros v _ Hv Ev. split.
    + apply (in_place_fix_all (within_VulnerabilityRating sv) _ (rating_in sv)); [apply Hv|exact (f_equal Vulnerability_Ratings Ev)|].
      intros r _ _ Er. apply (f_equal VulnerabilityRating_Method) in Er. unfold rating_in in Er. projs_in Er. apply enum_or_fix in Er as [Er|Er].
      * rewrite Er. exists v1_4. unfold scoring_methods. cbn [In]. tauto.
      * apply (in_enum_is_listed _ sv), Er.
    + apply (if_present_fix (within_ToolsChoice sv) _ (tools_in sv)); [apply Hv|exact (f_equal Vulnerability_Tools Ev)|]. intros; eapply tools_fix; eassumption.
  - apply ptr_since_fix in EA; [|apply H]. destruct EA as [EA|[L EA]]; [rewrite EA; exact I|].
    apply (in_place_fix_all (within_Annotation sv) _ (annotation_in sv)); [apply H|exact EA|]. intros a _ Ha Ea.
    apply (if_present_fix (within_Annotator sv) _ (annotator_in sv)); [apply Ha|exact (f_equal Annotation_Annotator Ea)|].
    intros x Hx Ex L6. unfold annotator_in in Ex. apply Z.ltb_lt in L6. rewrite L6 in Ex.
    apply (if_present_fix (within_Service sv) _ (service_in sv)); [apply Hx|exact (f_equal Annotator_Service Ex)|].
    intros; apply service_fix; assumption.
Qed.
