(** Proofs: what a conversion produces contains nothing newer than the target version,
    except at the positions listed in Gaps.v. *)
From Verif Require Import Base Types TypesFacts Proj ConvertModel ConvertSpec ConvertProofs ConvertReach ConvertReachProofs
  Within WithinFacts Gaps.
From Coq Require Import Lia.
Local Open Scope string_scope.
Local Open Scope Z_scope.

(** ** Combinators *)

Lemma inside_since {A} (P : A -> Prop) v sv o : (v <= sv -> inside P o) -> inside P (ptr_since v sv o).
Proof. intros H. unfold ptr_since, since. destruct (Z.leb_spec v sv); [auto|exact I]. Qed.
Lemma all_in_since {A} (P : A -> Prop) v sv p : (v <= sv -> all_in P p) -> all_in P (ptr_since v sv p).
Proof. intros H. unfold ptr_since, since. destruct (Z.leb_spec v sv); [auto|exact I]. Qed.
Lemma inside_map {A B} (Q : A -> Prop) (P : B -> Prop) f o : inside Q o -> (forall x, Q x -> P (f x)) -> inside P (if_present f o).
Proof. destruct o; cbn; auto. Qed.
Lemma inside_map' {A B} (P : B -> Prop) (f : A -> B) o : (forall x, P (f x)) -> inside P (if_present f o).
Proof. destruct o; cbn; auto. Qed.
Lemma all_in_map {A B} (Q : A -> Prop) (P : B -> Prop) f p : all_in Q p -> (forall x, Q x -> P (f x)) -> all_in P (in_place f p).
Proof.
  intros H1 H2. apply all_in_forall. intros y Hy. rewrite members_in_place in Hy. apply in_map_iff in Hy as (x & <- & Hx).
  apply H2. revert x Hx. apply all_in_forall. exact H1.
Qed.
Lemma all_in_map' {A B} (P : B -> Prop) (f : A -> B) p : (forall x, P (f x)) -> all_in P (in_place f p).
Proof.
  intros H2. apply all_in_forall. intros y Hy. rewrite members_in_place in Hy. apply in_map_iff in Hy as (x & <- & Hx). auto.
Qed.
Lemma all_in_impl {A} (P Q : A -> Prop) p : all_in P p -> (forall x, P x -> Q x) -> all_in Q p.
Proof. rewrite !all_in_forall. auto. Qed.
Lemma inside_impl {A} (P Q : A -> Prop) p : inside P p -> (forall x, P x -> Q x) -> inside Q p.
Proof. destruct p; cbn; auto. Qed.
Lemma introduced_ptr_since {A} v w sv (x : option A) : v <= w -> introduced v sv None (ptr_since w sv x).
Proof. intros H L. apply ptr_since_old. lia. Qed.
Lemma introduced_str_since v w sv x : v <= w -> introduced v sv "" (str_since w sv x).
Proof. intros H L. apply str_since_old. lia. Qed.
Lemma introduced_in_place {A B} v sv (f : A -> B) p : introduced v sv None p -> introduced v sv None (in_place f p).
Proof. intros H L. rewrite (H L). reflexivity. Qed.

(** Every value a table accepts for [sv] is one the schema accepts. *)
Definition covers (schema table : enum) : bool :=
  forallb (fun p => forallb (fun q => negb (String.eqb (fst p) (fst q)) || (snd p <=? snd q)) table) schema.
Lemma in_enum_some e sv s : in_enum e sv s = true -> exists v, In (s, v) e /\ v <= sv.
Proof.
  induction e as [|[s' v'] e IH]; cbn [in_enum]; [discriminate|].
  destruct (String.eqb_spec s' s) as [->|Hne]; intros H.
  - exists v'. split; [left; reflexivity|]. apply Z.leb_le, H.
  - destruct (IH H) as (v & Hin & Hv). exists v; split; [right; exact Hin|exact Hv].
Qed.

Lemma covers_not_newer schema table sv s : covers schema table = true -> in_enum table sv s = true -> not_newer schema sv s.
Proof.
  intros Hc Hi v Hin. apply in_enum_some in Hi as (w & Hw & Hle). unfold covers in Hc. rewrite forallb_forall in Hc.
  specialize (Hc _ Hin). rewrite forallb_forall in Hc. specialize (Hc _ Hw). cbn in Hc. rewrite String.eqb_refl in Hc. cbn in Hc.
  apply Z.leb_le in Hc. lia.
Qed.

Lemma in_open_enum_some e v sv s : in_open_enum e v sv s = true ->
  (exists w, In (s, w) e /\ w <= sv) \/ (existsb (fun q => String.eqb s (fst q)) e = false /\ v <= sv).
Proof.
  induction e as [|[s' v'] e IH]; cbn [in_open_enum existsb fst]; intros H.
  - right. split; [reflexivity|apply Z.leb_le, H].
  - rewrite (String.eqb_sym s s'). destruct (String.eqb_spec s' s) as [->|Hne].
    + left. exists v'. split; [left; reflexivity|apply Z.leb_le, H].
    + destruct (IH H) as [(w & Hw & Hle)|[H1 H2]]; [left; exists w; split; [right; exact Hw|exact Hle]|right; auto].
Qed.

(** As above for tables in which unlisted values count as old; [rest] are the newer values the table does not know. *)
Lemma covers_open_not_newer schema table rest v sv s :
  covers schema table = true ->
  forallb (fun p => (snd p <=? v) || existsb (fun q => String.eqb (fst p) (fst q)) table ||
                    existsb (fun q => String.eqb (fst p) (fst q) && (snd p <=? snd q)) rest) schema = true ->
  not_newer rest sv s ->
  in_open_enum table v sv s = true -> not_newer schema sv s.
Proof.
  intros Hc Ho Hr Hi w Hin. apply in_open_enum_some in Hi as [(u & Hu & Hle)|[Hno Hv]].
  - unfold covers in Hc. rewrite forallb_forall in Hc.
    specialize (Hc _ Hin). rewrite forallb_forall in Hc. specialize (Hc _ Hu). cbn in Hc. rewrite String.eqb_refl in Hc. cbn in Hc.
    apply Z.leb_le in Hc. lia.
  - rewrite forallb_forall in Ho. specialize (Ho _ Hin). cbn [fst snd] in Ho. rewrite Hno, Bool.orb_false_r in Ho.
    apply Bool.orb_true_iff in Ho as [Ho|Ho]; [apply Z.leb_le in Ho; lia|].
    apply existsb_exists in Ho as ([s' u] & Hu & He). cbn in He. apply Bool.andb_true_iff in He as [He Hl].
    apply String.eqb_eq in He as <-. apply Z.leb_le in Hl. specialize (Hr _ Hu). lia.
Qed.

Lemma enum_or_not_newer schema table fb sv s :
  covers schema table = true -> not_newer schema sv fb -> not_newer schema sv (enum_or fb table sv s).
Proof. intros Hc Hf. unfold enum_or. destruct (in_enum table sv s) eqn:E; [eapply covers_not_newer; eassumption|exact Hf]. Qed.

Lemma open_enum_or_not_newer schema table rest fb v sv s :
  covers schema table = true ->
  forallb (fun p => (snd p <=? v) || existsb (fun q => String.eqb (fst p) (fst q)) table ||
                    existsb (fun q => String.eqb (fst p) (fst q) && (snd p <=? snd q)) rest) schema = true ->
  not_newer rest sv s -> not_newer schema sv fb -> not_newer schema sv (open_enum_or fb table v sv s).
Proof.
  intros Hc Ho Hr Hf. unfold open_enum_or. destruct (in_open_enum table v sv s) eqn:E; [|exact Hf].
  eapply covers_open_not_newer; eassumption.
Qed.

(** A literal value, by computation on the table. *)
Lemma not_newer_literal e sv s m :
  forallb (fun p => negb (String.eqb (fst p) s) || (snd p <=? m)) e = true -> m <= sv -> not_newer e sv s.
Proof.
  intros H Hm v Hin. rewrite forallb_forall in H. specialize (H _ Hin). cbn in H. rewrite String.eqb_refl in H. cbn in H.
  apply Z.leb_le in H. lia.
Qed.

(** Every entry of the table is in the schema, with the same version; [skip] excepted. *)
Definition agrees (skip : list string) (table schema : enum) : bool :=
  forallb (fun p => existsb (String.eqb (fst p)) skip || existsb (fun q => String.eqb (fst p) (fst q) && (snd p =? snd q)) schema) table.

Lemma agrees_in skip table schema s v :
  agrees skip table schema = true -> ~ In s skip -> In (s, v) table -> In (s, v) schema.
Proof.
  intros Ha Hs Hin. unfold agrees in Ha. rewrite forallb_forall in Ha.
  specialize (Ha _ Hin). cbn [fst snd] in Ha. apply Bool.orb_true_iff in Ha as [Ha|Ha].
  - apply existsb_exists in Ha as (x & Hx & E). apply String.eqb_eq in E as <-. contradiction.
  - apply existsb_exists in Ha as ([s' w] & Hw & E). cbn in E. apply Bool.andb_true_iff in E as [E1 E2].
    apply String.eqb_eq in E1 as <-. apply Z.eqb_eq in E2 as <-. exact Hw.
Qed.

(** ** The clause solver *)

Ltac clause :=
  projs;
  first
  [ exact I
  | assumption
  | apply introduced_new; vlia
  | apply introduced_ptr_since; vlia
  | apply introduced_str_since; vlia
  | apply inside_since; intros; apply inside_new; intros; auto with within; fail
  | apply all_in_since; intros; apply all_in_new; intros; auto with within; fail
  | apply inside_new; intros; auto with within; fail
  | apply all_in_new; intros; auto with within; fail
  | apply inside_map'; intros; auto with within; fail
  | apply all_in_map'; intros; auto with within; fail
  | apply inside_since; intros; apply inside_map'; intros; auto with within; fail
  | apply all_in_since; intros; apply all_in_map'; intros; auto with within; fail
  | idtac ].

Lemma contact_within sv c : v1_2 <= sv -> within_OrganizationalContact sv (contact_in sv c).
Proof. intros H. unfold within_OrganizationalContact, contact_in. conjs; clause. Qed.

Create HintDb within.
#[export] Hint Extern 5 (_ <= _) => vlia : within.
#[export] Hint Resolve contact_within within_PostalAddress_new within_Property_new within_AttachedText_new within_Hash_new : within.

Lemma entity_within sv o : v1_2 <= sv -> within_OrganizationalEntity sv (entity_in sv o).
Proof. intros H. unfold within_OrganizationalEntity, entity_in. conjs; clause. Qed.
#[export] Hint Resolve entity_within within_DataGovernance_new within_OrganizationalEntity_new : within.

Lemma data_within sv d : v1_2 <= sv -> within_DataClassification sv (data_in sv d).
Proof. intros H. unfold within_DataClassification, data_in. conjs; clause. Qed.
#[export] Hint Resolve data_within : within.

Lemma reference_within sv r : v1_1 <= sv -> no_gap_reference sv r -> within_ExternalReference sv (extref_in sv r).
Proof.
  intros H [H1 H2]. unfold within_ExternalReference, extref_in. conjs; clause.
  - apply all_in_since. exact H2.
  - apply (open_enum_or_not_newer _ _ unlisted_reference_types); [reflexivity|reflexivity|exact H1|].
    apply (not_newer_literal _ _ _ v1_1); [reflexivity|exact H].
Qed.

Lemma hashes_within sv p : all_in (within_Hash sv) (hashes_in sv p).
Proof.
  apply all_in_forall. intros h Hh. unfold hashes_in in Hh. rewrite members_keep in Hh. apply filter_In in Hh as [_ Hh].
  unfold within_Hash. eapply covers_not_newer; [|exact Hh]. reflexivity.
Qed.

Lemma party_within sv p : v1_5 <= sv -> within_OrganizationalEntityOrContact sv (party_in sv p).
Proof.
  intros H. unfold within_OrganizationalEntityOrContact, party_in. conjs; clause.
  apply inside_new; intros; apply within_OrganizationalContact_new; exact H.
Qed.
#[export] Hint Resolve party_within : within.

Lemma licensing_within sv l : v1_5 <= sv -> within_Licensing sv (licensing_in sv l).
Proof. intros H. unfold within_Licensing, licensing_in. conjs; clause. Qed.
#[export] Hint Resolve licensing_within within_LicenseExpressionDetail_new within_Licensing_new : within.

Lemma license_within sv l : within_License sv (license_in sv l).
Proof. unfold within_License, license_in. conjs; clause. Qed.
#[export] Hint Resolve license_within : within.

Lemma license_choice_within sv c : no_gap_license sv c -> within_LicenseChoice sv (license_choice_in sv c).
Proof. intros [H1 H2]. unfold within_LicenseChoice, license_choice_in. conjs; clause. Qed.

Lemma named_license_true c : named_license c = true <-> exists l, LicenseChoice_License c = Some l /\ (License_ID l <> "" \/ License_Name l <> "").
Proof.
  unfold named_license. destruct (LicenseChoice_License c) as [l|]; [|split; [discriminate|intros (l & E & _); discriminate]].
  destruct (String.eqb_spec (License_ID l) ""), (String.eqb_spec (License_Name l) ""); cbn; (split; [intros E|intros (l' & El & E)]);
    try discriminate; try reflexivity; try (exists l; split; [reflexivity|]; tauto).
  inversion El; subst. tauto.
Qed.

Lemma licenses_within sv p : no_gap_licenses sv p -> all_in (within_LicenseChoice sv) (licenses_in sv p).
Proof.
  intros H. unfold licenses_in. apply (all_in_map (no_gap_license sv)); [|apply license_choice_within].
  unfold no_gap_licenses in H. pose proof (proj1 (all_in_forall _ _) H) as H'. apply all_in_forall.
  destruct (Z.ltb_spec sv v1_1) as [L|L]; intros x Hx.
  - rewrite members_keep in Hx. apply filter_In in Hx as [Hx Hn]. apply (H' x Hx). intros _. apply named_license_true, Hn.
  - apply (H' x Hx). lia.
Qed.

(** ** Components *)
#[export] Hint Resolve within_EvidenceIdentityMethod_new within_Callstack_new within_Copyright_new within_EvidenceOccurrence_new
  within_ReleaseNotes_new within_MLQuantitativeAnalysis_new within_MLModelCardEthicalConsideration_new
  within_MLModelCardFairnessAssessment_new within_CertificateState_new within_CertificateExtension_new
  within_RelatedCryptographicAsset_new within_SecuredBy_new within_SWID_new within_Commit_new within_Patch_new
  within_PatentAssertion_new within_JSFSignature_new within_EvidenceIdentity_new within_EvidenceIdentityChoice_new
  within_OrganizationalContact_new : within.

Lemma identity_within_1_5 sv i : v1_5 <= sv -> not_newer EvidenceIdentityFieldType_values sv (EvidenceIdentity_Field i) ->
  within_EvidenceIdentity sv (identity_in_1_5 i).
Proof.
  intros H Hf. unfold within_EvidenceIdentity, identity_in_1_5. conjs; clause. intros _; reflexivity.
Qed.

Lemma evidence_within sv e : v1_3 <= sv -> no_gap_evidence sv e -> within_Evidence sv (evidence_in sv e).
Proof.
  intros H (H1 & H2 & H3). unfold within_Evidence, evidence_in. conjs; clause.
  - apply inside_since. intros H5. specialize (H3 H5). destruct (Z.ltb_spec sv v1_6).
    + destruct (Evidence_Identity e) as [i|]; [|exact I]. cbn [inside] in H3. unfold surviving_identity in H3.
      unfold identity_choice_in_1_5. destruct (EvidenceIdentityChoice_Identities i) as [[[|x l]|]|]; cbn [inside]; trivial;
        unfold within_EvidenceIdentityChoice; projs; conjs; clause; try (intros _; reflexivity).
      * apply identity_within_1_5; assumption.
      * apply (inside_map _ _ _ _ H3). intros; apply identity_within_1_5; assumption.
    + apply inside_new. intros; apply within_EvidenceIdentityChoice_new; assumption.
  - apply all_in_since. intros H5. destruct (Z.ltb_spec sv v1_6); [|apply all_in_new; intros; auto with within].
    apply all_in_map'. intros o. unfold within_EvidenceOccurrence, occurrence_in_1_5. conjs; clause; intros _; reflexivity.
  - destruct (Z.ltb_spec sv v1_5); [auto|]. apply licenses_within; auto.
Qed.

Lemma considerations_within sv c : v1_5 <= sv ->
  from v1_6 sv (inside (within_MLModelCardEnvironmentalConsiderations sv) (MLModelCardConsiderations_EnvironmentalConsiderations c)) ->
  within_MLModelCardConsiderations sv (considerations_in sv c).
Proof. intros H H1. unfold within_MLModelCardConsiderations, considerations_in. conjs; clause. apply inside_since, H1. Qed.

Lemma model_card_within sv m : v1_5 <= sv -> no_gap_model_card sv m -> within_MLModelCard sv (model_card_in sv m).
Proof.
  intros H [H1 H2]. unfold within_MLModelCard, model_card_in. conjs; clause.
  apply (inside_map _ _ _ _ H2). intros; apply considerations_within; assumption.
Qed.

Lemma algorithm_within sv a : v1_6 <= sv -> within_CryptoAlgorithmProperties sv (algorithm_in sv a).
Proof.
  intros H. unfold within_CryptoAlgorithmProperties, algorithm_in. conjs; clause.
  apply (open_enum_or_not_newer _ _ []); [reflexivity|reflexivity|intros ? []|].
  apply (not_newer_literal _ _ _ v1_6); [reflexivity|exact H].
Qed.
Lemma certificate_within sv c : v1_6 <= sv -> within_CertificateProperties sv (certificate_in sv c).
Proof. intros H. unfold within_CertificateProperties, certificate_in. conjs; clause. Qed.
Lemma material_within sv c : v1_6 <= sv -> within_RelatedCryptoMaterialProperties sv (material_in sv c).
Proof. intros H. unfold within_RelatedCryptoMaterialProperties, material_in. conjs; clause. Qed.
Lemma cipher_suite_within sv c : v1_6 <= sv -> within_CipherSuite sv (cipher_suite_in sv c).
Proof. intros H. unfold within_CipherSuite, cipher_suite_in. conjs; clause. Qed.
#[export] Hint Resolve algorithm_within certificate_within material_within cipher_suite_within : within.
Lemma protocol_within sv p : v1_6 <= sv -> inside (within_IKEv2TransformTypes sv) (CryptoProtocolProperties_IKEv2TransformTypes p) ->
  within_CryptoProtocolProperties sv (protocol_in sv p).
Proof.
  intros H H1. unfold within_CryptoProtocolProperties, protocol_in. conjs; clause.
  apply (open_enum_or_not_newer _ _ []); [reflexivity|reflexivity|intros ? []|].
  apply (not_newer_literal _ _ _ v1_6); [reflexivity|exact H].
Qed.
Lemma crypto_within sv c : v1_6 <= sv -> no_gap_crypto sv c -> within_CryptoProperties sv (crypto_in sv c).
Proof.
  intros H H1. unfold within_CryptoProperties, crypto_in. conjs; clause.
  apply (inside_map _ _ _ _ H1). intros; apply protocol_within; assumption.
Qed.

Definition no_gap_component_ (sv : SpecVersion) (c : Component) : Prop :=
  from v1_2 sv (inside (within_OrganizationalEntity sv) (Component_Supplier c)) /\
  no_gap_licenses sv (Component_Licenses c) /\
  from v1_1 sv (inside (no_gap_pedigree (no_gap_component sv)) (Component_Pedigree c)) /\
  from v1_1 sv (all_in (no_gap_reference sv) (Component_ExternalReferences c)) /\
  all_in (no_gap_component sv) (Component_Components c) /\
  from v1_3 sv (inside (no_gap_evidence sv) (Component_Evidence c)) /\
  from v1_5 sv (inside (no_gap_model_card sv) (Component_ModelCard c)) /\
  from v1_5 sv (all_in (within_ComponentData sv) (Component_Data c)) /\
  from v1_6 sv (inside (no_gap_crypto sv) (Component_CryptoProperties c)) /\
  introduced v1_4 sv None (Component_Signature c).
Lemma no_gap_component_fix sv c : no_gap_component sv c = no_gap_component_ sv c.
Proof. destruct c; reflexivity. Qed.

Lemma all_in_map_in {A B} (Q : A -> Prop) (P : B -> Prop) f p :
  all_in Q p -> (forall x, In x (members p) -> Q x -> P (f x)) -> all_in P (in_place f p).
Proof.
  intros H1 H2. rewrite all_in_forall in H1. apply all_in_forall. intros y Hy. rewrite members_in_place in Hy.
  apply in_map_iff in Hy as (x & <- & Hx). auto.
Qed.

Lemma component_within sv c : v1_0 <= sv -> no_gap_component sv c -> within_Component sv (component_in sv c).
Proof.
  intros H0. induction c as [c IH] using component_induction. rewrite no_gap_component_fix.
  intros (H1 & H2 & H3 & H4 & H5 & H6 & H7 & H8 & H9 & H10).
  rewrite within_Component_fix, component_in_fix. unfold within_Component_, component_in_. conjs; clause.
  - apply enum_or_not_newer; [reflexivity|]. apply (not_newer_literal _ _ _ v1_0); [reflexivity|exact H0].
  - apply inside_since, H1.
  - apply enum_or_not_newer; [reflexivity|]. apply (not_newer_literal _ _ _ v1_0); [reflexivity|exact H0].
  - apply hashes_within.
  - apply licenses_within, H2.
  - apply inside_since. intros L. specialize (H3 L). destruct (Component_Pedigree c) as [p|] eqn:Ep; [|exact I].
    cbn in H3 |- *. destruct H3 as (Ha & Hd & Hv). unfold within_Pedigree, pedigree_in. conjs; clause.
    + eapply all_in_map_in; [exact Ha|]. intros x Hx; apply IH. right. exists p. auto.
    + eapply all_in_map_in; [exact Hd|]. intros x Hx; apply IH. right. exists p. auto.
    + eapply all_in_map_in; [exact Hv|]. intros x Hx; apply IH. right. exists p. auto.
  - apply all_in_since. intros L. eapply all_in_map; [exact (H4 L)|]. intros; apply reference_within; auto with within.
  - eapply all_in_map_in; [exact H5|]. intros x Hx; apply IH. left. exact Hx.
  - apply inside_since. intros L. eapply inside_map; [exact (H6 L)|]. intros; apply evidence_within; assumption.
  - apply inside_since. intros L. eapply inside_map; [exact (H7 L)|]. intros; apply model_card_within; assumption.
  - apply all_in_since, H8.
  - apply inside_since. intros L. eapply inside_map; [exact (H9 L)|]. intros; apply crypto_within; assumption.
  - destruct (Z.lt_ge_cases sv v1_4) as [L|L]; [rewrite (H10 L); exact I|]. apply inside_new; intros; apply within_JSFSignature_new; lia.
Qed.

(** ** Services, tools *)

Definition no_gap_service_ (sv : SpecVersion) (s : Service) : Prop :=
  all_in (within_LicenseChoice sv) (Service_Licenses s) /\
  all_in (no_gap_reference sv) (Service_ExternalReferences s) /\
  all_in (no_gap_service sv) (Service_Services s) /\
  introduced v1_6 sv None (Service_Tags s) /\
  introduced v1_4 sv None (Service_Signature s).
Lemma no_gap_service_fix sv s : no_gap_service sv s = no_gap_service_ sv s.
Proof. destruct s; reflexivity. Qed.

Lemma service_within sv s : v1_2 <= sv -> no_gap_service sv s -> within_Service sv (service_in sv s).
Proof.
  intros H0. induction s as [s IH] using service_induction. rewrite no_gap_service_fix. intros (H1 & H2 & H3 & H4 & H5).
  rewrite within_Service_fix, service_in_fix. unfold within_Service_, service_in_. conjs; clause.
  - eapply all_in_map; [exact H2|]. intros; apply reference_within; auto with within.
  - eapply all_in_map_in; [exact H3|]. intros x Hx; apply IH. exact Hx.
  - destruct (Z.lt_ge_cases sv v1_4) as [L|L]; [rewrite (H5 L); exact I|]. apply inside_new; intros; apply within_JSFSignature_new; lia.
Qed.

Lemma tool_within sv t : v1_2 <= sv -> (v1_4 <= sv -> all_in (no_gap_reference sv) (Tool_ExternalReferences t)) -> within_Tool sv (tool_in sv t).
Proof.
  intros H0 H1. unfold within_Tool, tool_in. conjs; clause.
  - apply hashes_within.
  - apply all_in_since. intros L. eapply all_in_map; [exact (H1 L)|]. intros; apply reference_within; auto with within.
Qed.

Lemma tools_within sv t : v1_2 <= sv -> no_gap_tools sv t -> within_ToolsChoice sv (tools_in sv t).
Proof.
  intros H0 (H1 & H2 & H3 & H4). unfold within_ToolsChoice, tools_in. destruct (Z.ltb_spec sv v1_5) as [L|L]; conjs; clause;
    try (intros _; reflexivity).
  - apply all_in_forall. intros x Hx.
    assert (Hm : In x (map (tool_in sv) (all_tools t))).
    { pose proof (tools_members sv t L) as Hm. unfold tools_in in Hm. apply Z.ltb_lt in L. rewrite L in Hm. cbn [ToolsChoice_Tools] in Hm.
      rewrite <- Hm. exact Hx. }
    apply in_map_iff in Hm as (y & <- & Hy). apply tool_within; [exact H0|]. intros L4.
    unfold all_tools in Hy. rewrite !in_app_iff, !in_map_iff in Hy.
    destruct (H2 (conj L4 L)) as [Hc Hs]. pose proof (proj1 (all_in_forall _ _) (H1 L4)) as Ht. pose proof (proj1 (all_in_forall _ _) Hc) as Hc'; pose proof (proj1 (all_in_forall _ _) Hs) as Hs'.
    destruct Hy as [Hy|[(z & <- & Hz)|(z & <- & Hz)]]; [exact (Ht _ Hy)|exact (Hc' _ Hz)|exact (Hs' _ Hz)].
  - eapply all_in_map; [apply H1; vlia|]. intros x Hx. apply tool_within; [exact H0|]. intros; exact Hx.
  - exact (H3 L).
  - eapply all_in_map; [exact (H4 L)|]. intros s. rewrite !within_Service_fix. unfold within_Service_, tool_service_in, set_Service_Provider.
    destruct s; projs. intros Hs. conjs; clause; try apply Hs.
Qed.

(** ** The document *)

#[export] Hint Resolve within_Lifecycle_new within_DistributionConstraints_new within_Source_new within_VulnerabilityReference_new
  within_ProofOfConcept_new within_Advisory_new within_Affects_new within_PatentChoice_new within_Citation_new : within.

Lemma metadata_within sv m : v1_2 <= sv -> no_gap_metadata sv m -> within_Metadata sv (metadata_in sv m).
Proof.
  intros H0 (H1 & H2 & H3). unfold within_Metadata, metadata_in. conjs; clause.
  - eapply inside_map; [exact H1|]. intros; apply tools_within; assumption.
  - eapply inside_map; [exact H2|]. intros; apply component_within; auto with within.
  - apply all_in_since. intros L. apply licenses_within, H3, L.
Qed.

Lemma rating_within sv r : v1_4 <= sv -> within_VulnerabilityRating sv (rating_in sv r).
Proof.
  intros H. unfold within_VulnerabilityRating, rating_in. conjs; clause.
  apply enum_or_not_newer; [reflexivity|]. apply (not_newer_literal _ _ _ v1_4); [reflexivity|exact H].
Qed.
Lemma credits_within sv c : v1_4 <= sv -> within_Credits sv (credits_in sv c).
Proof. intros H. unfold within_Credits, credits_in. conjs; clause. Qed.
Lemma analysis_within sv c : v1_4 <= sv -> within_VulnerabilityAnalysis sv (analysis_in sv c).
Proof. intros H. unfold within_VulnerabilityAnalysis, analysis_in. conjs; clause. Qed.
#[export] Hint Resolve rating_within credits_within analysis_within : within.

Lemma vulnerability_within sv v : v1_4 <= sv -> inside (no_gap_tools sv) (Vulnerability_Tools v) ->
  within_Vulnerability sv (vulnerability_in sv v).
Proof.
  intros H H1. unfold within_Vulnerability, vulnerability_in. conjs; clause.
  eapply inside_map; [exact H1|]. intros; apply tools_within; auto with within.
Qed.

Lemma composition_within sv c : v1_3 <= sv -> introduced v1_4 sv None (Composition_Signature c) -> within_Composition sv (composition_in sv c).
Proof.
  intros H H1. unfold within_Composition, composition_in. conjs; clause.
  - apply (open_enum_or_not_newer _ _ []); [reflexivity|reflexivity|intros ? []|].
    apply (not_newer_literal _ _ _ v1_3); [reflexivity|exact H].
  - destruct (Z.lt_ge_cases sv v1_4) as [L|L]; [rewrite (H1 L); exact I|]. apply inside_new; intros; apply within_JSFSignature_new; lia.
Qed.

Lemma annotation_within sv a : v1_5 <= sv -> inside (no_gap_annotator sv) (Annotation_Annotator a) -> within_Annotation sv (annotation_in sv a).
Proof.
  intros H H1. unfold within_Annotation, annotation_in. conjs; clause.
  eapply inside_map; [exact H1|]. intros x (Hc & Hs1 & Hs2). unfold within_Annotator, annotator_in.
  destruct (Z.ltb_spec sv v1_6) as [L|L]; conjs; clause.
  - eapply inside_map; [exact (Hs1 L)|]. intros; apply service_within; auto with within.
  - exact (Hs2 L).
Qed.

Lemma dependency_within sv d : v1_2 <= sv -> within_Dependency sv (dependency_in sv d).
Proof. intros H. unfold within_Dependency, dependency_in. conjs; clause. Qed.
#[export] Hint Resolve dependency_within : within.

Theorem convert_within sv b : v1_0 <= sv -> no_gap sv b -> within_BOM sv (convert sv b).
Proof.
  intros H0 (H1 & H2 & H3 & H4 & H5 & H6 & H7 & H8 & H9 & H10 & H11 & H12). rewrite convert_spec.
  unfold within_BOM, bom_in. conjs; clause.
  - apply inside_since. intros L. eapply inside_map; [exact (H1 L)|]. intros; apply metadata_within; assumption.
  - eapply all_in_map; [exact H2|]. intros; apply component_within; assumption.
  - apply all_in_since. intros L. eapply all_in_map; [exact (H3 L)|]. intros; apply service_within; assumption.
  - apply all_in_since. intros L. eapply all_in_map; [exact (H4 L)|]. intros; apply reference_within; assumption.
  - apply all_in_since. intros L. eapply all_in_map; [exact (H5 L)|]. intros; apply composition_within; assumption.
  - destruct (Z.lt_ge_cases sv v1_3) as [L|L]; [rewrite (H6 L); exact I|]. apply all_in_new; intros; apply within_Property_new; exact L.
  - apply all_in_since. intros L. eapply all_in_map; [exact (H7 L)|]. intros; apply vulnerability_within; assumption.
  - apply all_in_since. intros L. eapply all_in_map; [exact (H8 L)|]. intros; apply annotation_within; assumption.
  - apply all_in_since, H9.
  - apply inside_since, H10.
  - apply inside_since. intros L. eapply inside_map; [exact (H11 L)|]. intros d Hd. unfold within_Definitions, definitions_in. conjs; clause.
  - destruct (Z.lt_ge_cases sv v1_4) as [L|L]; [rewrite (H12 L); exact I|]. apply inside_new; intros; apply within_JSFSignature_new; exact L.
Qed.

(** ** The gaps are exact: what lies in them survives *)

Lemma inside_since_inv {A} (P : A -> Prop) v sv o : inside P (ptr_since v sv o) -> v <= sv -> inside P o.
Proof. intros H L. rewrite ptr_since_new in H by exact L. exact H. Qed.
Lemma all_in_since_inv {A} (P : A -> Prop) v sv p : all_in P (ptr_since v sv p) -> v <= sv -> all_in P p.
Proof. intros H L. rewrite ptr_since_new in H by exact L. exact H. Qed.
Lemma inside_map_inv {A B} (Q : A -> Prop) (P : B -> Prop) f o : inside P (if_present f o) -> (forall x, P (f x) -> Q x) -> inside Q o.
Proof. destruct o; cbn; auto. Qed.
Lemma all_in_map_inv {A B} (Q : A -> Prop) (P : B -> Prop) f p :
  all_in P (in_place f p) -> (forall x, In x (members p) -> P (f x) -> Q x) -> all_in Q p.
Proof.
  intros H1 H2. apply all_in_forall. intros x Hx. apply H2; [exact Hx|]. apply (proj1 (all_in_forall _ _) H1).
  rewrite members_in_place. apply in_map, Hx.
Qed.

Lemma reference_gap sv r : v1_1 <= sv -> within_ExternalReference sv (extref_in sv r) -> no_gap_reference sv r.
Proof.
  intros L H. unfold within_ExternalReference, extref_in in H. projs_in H. destruct H as (_ & _ & _ & H1 & _ & H2 & _). split.
  - intros v Hv. unfold open_enum_or in H2.
    assert (E : in_open_enum external_reference_types v1_1 sv (ExternalReference_Type r) = true).
    { destruct (in_open_enum external_reference_types v1_1 sv (ExternalReference_Type r)) eqn:E; [reflexivity|]. exfalso. revert E.
      unfold unlisted_reference_types in Hv. cbn [In] in Hv.
      repeat (destruct Hv as [Hv|Hv]; [injection Hv as <- <-;
        match goal with |- ?x = false -> _ => change x with (v1_1 <=? sv) end; intros E; apply Z.leb_gt in E; lia|]). destruct Hv. }
    rewrite E in H2. apply H2. apply (agrees_in [] unlisted_reference_types); [reflexivity|intros []|exact Hv].
  - intros L3. exact (all_in_since_inv _ _ _ _ H1 L3).
Qed.

Lemma license_choice_gap sv c : within_LicenseChoice sv (license_choice_in sv c) -> no_gap_license sv c.
Proof. intros H. unfold within_LicenseChoice, license_choice_in in H. projs_in H. split; apply H. Qed.

Lemma licenses_gap sv p : all_in (within_LicenseChoice sv) (licenses_in sv p) -> no_gap_licenses sv p.
Proof.
  intros H. unfold no_gap_licenses. apply all_in_forall. intros c Hc Hn. apply license_choice_gap.
  apply (proj1 (all_in_forall _ _) H). unfold licenses_in. rewrite members_in_place. apply in_map.
  destruct (Z.ltb_spec sv v1_1) as [L|L]; [|exact Hc]. rewrite members_keep. apply filter_In. split; [exact Hc|].
  apply named_license_true, Hn, L.
Qed.

Lemma evidence_gap sv e : within_Evidence sv (evidence_in sv e) -> no_gap_evidence sv e.
Proof.
  intros H. unfold within_Evidence, evidence_in in H. projs_in H. destruct H as (_ & H2 & _ & _ & _ & _ & _ & H8 & _). unfold no_gap_evidence. conjs.
  - intros L. apply Z.ltb_lt in L. rewrite L in H8. exact H8.
  - intros L. apply Z.ltb_ge in L. rewrite L in H8. apply licenses_gap, H8.
  - intros L. apply inside_since_inv in H2; [|exact L]. destruct (Z.ltb_spec sv v1_6) as [L6|L6].
    + destruct (Evidence_Identity e) as [i|]; [|exact I]. cbn [inside]. unfold identity_choice_in_1_5 in H2. unfold surviving_identity.
      destruct (EvidenceIdentityChoice_Identities i) as [[[|x l]|]|]; cbn [inside] in *; trivial; unfold within_EvidenceIdentityChoice in H2;
        projs_in H2; destruct H2 as (_ & H2 & _); [cbn [inside] in H2; apply H2|].
      apply (inside_map_inv _ _ _ _ H2). intros y Hy. apply Hy.
    + apply inside_new. intros i. apply inside_new. intros x. apply (not_newer_new _ v1_6); [reflexivity|lia].
Qed.

Lemma model_card_gap sv m : within_MLModelCard sv (model_card_in sv m) -> no_gap_model_card sv m.
Proof.
  intros H. unfold within_MLModelCard, model_card_in in H. projs_in H. split; [apply H|].
  apply (inside_map_inv _ (within_MLModelCardConsiderations sv) (considerations_in sv)); [apply H|].
  intros c Hc. unfold within_MLModelCardConsiderations, considerations_in in Hc. projs_in Hc. intros L.
  apply (inside_since_inv _ v1_6 sv); [apply Hc|exact L].
Qed.

Lemma crypto_gap sv c : within_CryptoProperties sv (crypto_in sv c) -> no_gap_crypto sv c.
Proof.
  intros H. unfold within_CryptoProperties, crypto_in in H. projs_in H.
  apply (inside_map_inv _ (within_CryptoProtocolProperties sv) (protocol_in sv)); [apply H|].
  intros p Hp. unfold within_CryptoProtocolProperties, protocol_in in Hp. projs_in Hp. apply Hp.
Qed.

Lemma component_gap sv c : within_Component sv (component_in sv c) -> no_gap_component sv c.
Proof.
  induction c as [c IH] using component_induction. rewrite no_gap_component_fix, within_Component_fix, component_in_fix.
  intros H. unfold within_Component_, component_in_ in H. projs_in H. unfold no_gap_component_. conjs.
  - intros L. apply (inside_since_inv _ v1_2 sv); [apply H|exact L].
  - apply licenses_gap, H.
  - intros L. assert (HP : inside (within_Pedigree (within_Component sv) sv) (if_present (pedigree_in sv (component_in sv)) (Component_Pedigree c)))
      by (apply (inside_since_inv _ v1_1 sv); [apply H|exact L]).
    destruct (Component_Pedigree c) as [p|] eqn:Ep; [|exact I]. cbn [if_present inside] in *.
    destruct HP as (_ & Ha & _ & Hd & _ & Hv & _). unfold pedigree_in in Ha, Hd, Hv. projs_in Ha. projs_in Hd. projs_in Hv.
    unfold no_gap_pedigree. conjs.
    + apply (all_in_map_inv _ _ _ _ Ha). intros x Hx. apply IH. right; exists p; auto.
    + apply (all_in_map_inv _ _ _ _ Hd). intros x Hx. apply IH. right; exists p; auto.
    + apply (all_in_map_inv _ _ _ _ Hv). intros x Hx. apply IH. right; exists p; auto.
  - intros L. apply (all_in_map_inv _ (within_ExternalReference sv) (extref_in sv)).
    + apply (all_in_since_inv _ v1_1 sv); [apply H|exact L].
    + intros x _. apply reference_gap, L.
  - apply (all_in_map_inv _ (within_Component sv) (component_in sv)); [apply H|]. intros x Hx. apply IH. left; exact Hx.
  - intros L. apply (inside_map_inv _ (within_Evidence sv) (evidence_in sv)); [|intros x; apply evidence_gap].
    apply (inside_since_inv _ v1_3 sv); [apply H|exact L].
  - intros L. apply (inside_map_inv _ (within_MLModelCard sv) (model_card_in sv)); [|intros x; apply model_card_gap].
    apply (inside_since_inv _ v1_5 sv); [apply H|exact L].
  - intros L. apply (all_in_since_inv _ v1_5 sv); [apply H|exact L].
  - intros L. apply (inside_map_inv _ (within_CryptoProperties sv) (crypto_in sv)); [|intros x; apply crypto_gap].
    apply (inside_since_inv _ v1_6 sv); [apply H|exact L].
  - apply H.
Qed.

Lemma service_gap sv s : v1_2 <= sv -> within_Service sv (service_in sv s) -> no_gap_service sv s.
Proof.
  intros L. induction s as [s IH] using service_induction. rewrite no_gap_service_fix, within_Service_fix, service_in_fix.
  intros H. unfold within_Service_, service_in_ in H. projs_in H. unfold no_gap_service_. conjs; try apply H.
  - apply (all_in_map_inv _ (within_ExternalReference sv) (extref_in sv)); [apply H|]. intros x _. apply reference_gap. vlia.
  - apply (all_in_map_inv _ (within_Service sv) (service_in sv)); [apply H|]. intros x Hx. apply IH, Hx.
Qed.

Lemma tool_gap sv t : v1_4 <= sv -> within_Tool sv (tool_in sv t) -> all_in (no_gap_reference sv) (Tool_ExternalReferences t).
Proof.
  intros L H. unfold within_Tool, tool_in in H. projs_in H.
  apply (all_in_map_inv _ (within_ExternalReference sv) (extref_in sv)).
  - apply (all_in_since_inv _ v1_4 sv); [apply H|exact L].
  - intros x _. apply reference_gap. vlia.
Qed.

Lemma tools_gap sv t : within_ToolsChoice sv (tools_in sv t) -> no_gap_tools sv t.
Proof.
  intros H. destruct (Z.lt_ge_cases sv v1_5) as [L|L].
  - assert (Hall : v1_4 <= sv -> forall x, In x (all_tools t) -> all_in (no_gap_reference sv) (Tool_ExternalReferences x)).
    { intros L4 x Hx. apply tool_gap; [exact L4|]. destruct H as (_ & H & _). apply (proj1 (all_in_forall _ _) H).
      rewrite tools_members by exact L. apply in_map, Hx. }
    unfold no_gap_tools. conjs.
    + intros L4. apply all_in_forall. intros x Hx. apply Hall; [exact L4|]. unfold all_tools. rewrite !in_app_iff. left; exact Hx.
    + intros [L4 _]. split; apply all_in_forall; intros x Hx.
      * apply (Hall L4 (component_as_tool x)). unfold all_tools. rewrite !in_app_iff. right; left. apply in_map, Hx.
      * apply (Hall L4 (service_as_tool x)). unfold all_tools. rewrite !in_app_iff. right; right. apply in_map, Hx.
    + intros L5; vlia.
    + intros L5; vlia.
  - unfold within_ToolsChoice, tools_in in H. apply Z.ltb_ge in L. rewrite L in H. apply Z.ltb_ge in L. projs_in H.
    unfold no_gap_tools. conjs.
    + intros L4. apply (all_in_map_inv _ (within_Tool sv) (tool_in sv)); [apply H|]. intros x _. apply tool_gap, L4.
    + intros [_ L5]; lia.
    + intros _. apply H.
    + intros _. apply (all_in_map_inv _ (within_Service sv) (tool_service_in sv)); [apply H|]. intros s _. rewrite !within_Service_fix.
      unfold within_Service_, tool_service_in. intros Hs.
      assert (E : forall p q, set_Service_Provider p (set_Service_Provider q s) = set_Service_Provider p s) by (intros; destruct s; reflexivity).
      destruct s. unfold set_Service_Provider in Hs |- *. projs_in Hs. projs.
      conjs; try apply Hs; try (intros _; reflexivity); exact I.
Qed.

Lemma metadata_gap sv m : within_Metadata sv (metadata_in sv m) -> no_gap_metadata sv m.
Proof.
  intros H. unfold within_Metadata, metadata_in in H. projs_in H. unfold no_gap_metadata. conjs.
  - apply (inside_map_inv _ (within_ToolsChoice sv) (tools_in sv)); [apply H|]. intros x; apply tools_gap.
  - apply (inside_map_inv _ (within_Component sv) (component_in sv)); [apply H|]. intros x; apply component_gap.
  - intros L. apply licenses_gap. apply (all_in_since_inv _ v1_3 sv); [apply H|exact L].
Qed.

Lemma annotator_gap sv a : v1_5 <= sv -> within_Annotator sv (annotator_in sv a) -> no_gap_annotator sv a.
Proof.
  intros L5 H. unfold within_Annotator, annotator_in in H. unfold no_gap_annotator. destruct (Z.ltb_spec sv v1_6) as [L|L]; projs_in H; conjs; try apply H.
  - intros _. apply (inside_map_inv _ (within_Service sv) (service_in sv)); [apply H|]. intros x; apply service_gap. vlia.
  - intros L6; lia.
  - intros L6; lia.
  - intros _; apply H.
Qed.

Lemma within_gap sv b : within_BOM sv (convert sv b) -> no_gap sv b.
Proof.
  rewrite convert_spec. intros H. unfold within_BOM, bom_in in H. projs_in H. unfold no_gap. conjs; try apply H; try (intros L).
  2: { apply (all_in_map_inv _ (within_Component sv) (component_in sv)); [apply H|]. intros x _; apply component_gap. }
  - apply (inside_map_inv _ (within_Metadata sv) (metadata_in sv)); [|intros x; apply metadata_gap].
    apply (inside_since_inv _ v1_2 sv); [apply H|exact L].
  - apply (all_in_map_inv _ (within_Service sv) (service_in sv)); [|intros x _; apply service_gap, L].
    apply (all_in_since_inv _ v1_2 sv); [apply H|exact L].
  - apply (all_in_map_inv _ (within_ExternalReference sv) (extref_in sv)); [|intros x _; apply reference_gap, L].
    apply (all_in_since_inv _ v1_1 sv); [apply H|exact L].
  - apply (all_in_map_inv _ (within_Composition sv) (composition_in sv)); [|intros x _ Hx; apply Hx].
    apply (all_in_since_inv _ v1_3 sv); [apply H|exact L].
  - apply (all_in_map_inv _ (within_Vulnerability sv) (vulnerability_in sv)).
    + apply (all_in_since_inv _ v1_4 sv); [apply H|exact L].
    + intros x _ Hx. apply (inside_map_inv _ (within_ToolsChoice sv) (tools_in sv)); [apply Hx|]. intros y; apply tools_gap.
  - apply (all_in_map_inv _ (within_Annotation sv) (annotation_in sv)).
    + apply (all_in_since_inv _ v1_5 sv); [apply H|exact L].
    + intros x _ Hx. apply (inside_map_inv _ (within_Annotator sv) (annotator_in sv)); [apply Hx|]. intros y; apply annotator_gap, L.
  - apply (all_in_since_inv _ v1_5 sv); [apply H|exact L].
  - apply (inside_since_inv _ v1_6 sv); [apply H|exact L].
  - apply (inside_map_inv _ (within_Definitions sv) (definitions_in sv)); [|intros x Hx; apply Hx].
    apply (inside_since_inv _ v1_6 sv); [apply H|exact L].
Qed.
