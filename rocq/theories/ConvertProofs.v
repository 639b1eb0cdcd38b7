(** [convert] is the conversion described by ConvertSpec.v. *)
From Verif Require Import Base Types TypesFacts Consts Version ConvertModel ConvertSpec.
From Coq Require Import Lia.
Local Open Scope string_scope.

(** ** Case analysis on the target version *)

Lemma sv_cases sv :
  (sv_lt sv SpecVersion1_1 = true /\ sv_lt sv SpecVersion1_2 = true /\ sv_lt sv SpecVersion1_3 = true /\ sv_lt sv SpecVersion1_4 = true /\ sv_lt sv SpecVersion1_5 = true /\ sv_lt sv SpecVersion1_6 = true /\ sv_lt sv SpecVersion1_7 = true) \/
  (sv_lt sv SpecVersion1_1 = false /\ sv_lt sv SpecVersion1_2 = true /\ sv_lt sv SpecVersion1_3 = true /\ sv_lt sv SpecVersion1_4 = true /\ sv_lt sv SpecVersion1_5 = true /\ sv_lt sv SpecVersion1_6 = true /\ sv_lt sv SpecVersion1_7 = true) \/
  (sv_lt sv SpecVersion1_1 = false /\ sv_lt sv SpecVersion1_2 = false /\ sv_lt sv SpecVersion1_3 = true /\ sv_lt sv SpecVersion1_4 = true /\ sv_lt sv SpecVersion1_5 = true /\ sv_lt sv SpecVersion1_6 = true /\ sv_lt sv SpecVersion1_7 = true) \/
  (sv_lt sv SpecVersion1_1 = false /\ sv_lt sv SpecVersion1_2 = false /\ sv_lt sv SpecVersion1_3 = false /\ sv_lt sv SpecVersion1_4 = true /\ sv_lt sv SpecVersion1_5 = true /\ sv_lt sv SpecVersion1_6 = true /\ sv_lt sv SpecVersion1_7 = true) \/
  (sv_lt sv SpecVersion1_1 = false /\ sv_lt sv SpecVersion1_2 = false /\ sv_lt sv SpecVersion1_3 = false /\ sv_lt sv SpecVersion1_4 = false /\ sv_lt sv SpecVersion1_5 = true /\ sv_lt sv SpecVersion1_6 = true /\ sv_lt sv SpecVersion1_7 = true) \/
  (sv_lt sv SpecVersion1_1 = false /\ sv_lt sv SpecVersion1_2 = false /\ sv_lt sv SpecVersion1_3 = false /\ sv_lt sv SpecVersion1_4 = false /\ sv_lt sv SpecVersion1_5 = false /\ sv_lt sv SpecVersion1_6 = true /\ sv_lt sv SpecVersion1_7 = true) \/
  (sv_lt sv SpecVersion1_1 = false /\ sv_lt sv SpecVersion1_2 = false /\ sv_lt sv SpecVersion1_3 = false /\ sv_lt sv SpecVersion1_4 = false /\ sv_lt sv SpecVersion1_5 = false /\ sv_lt sv SpecVersion1_6 = false /\ sv_lt sv SpecVersion1_7 = true) \/
  (sv_lt sv SpecVersion1_1 = false /\ sv_lt sv SpecVersion1_2 = false /\ sv_lt sv SpecVersion1_3 = false /\ sv_lt sv SpecVersion1_4 = false /\ sv_lt sv SpecVersion1_5 = false /\ sv_lt sv SpecVersion1_6 = false /\ sv_lt sv SpecVersion1_7 = false).
Proof.
  unfold sv_lt, SpecVersion1_1, SpecVersion1_2, SpecVersion1_3, SpecVersion1_4, SpecVersion1_5, SpecVersion1_6, SpecVersion1_7.
  rewrite ?Z.ltb_lt, ?Z.ltb_ge. lia.
Qed.

Lemma leb_sv_lt v sv : (v <=? sv)%Z = negb (sv_lt sv v).
Proof. unfold sv_lt. apply Z.leb_antisym. Qed.

Lemma since_sv_lt {A} v (z : A) sv x : since v z sv x = if sv_lt sv v then z else x.
Proof. unfold since. rewrite leb_sv_lt. destruct (sv_lt sv v); reflexivity. Qed.

Lemma v_eqs : v1_0 = SpecVersion1_0 /\ v1_1 = SpecVersion1_1 /\ v1_2 = SpecVersion1_2 /\ v1_3 = SpecVersion1_3 /\
  v1_4 = SpecVersion1_4 /\ v1_5 = SpecVersion1_5 /\ v1_6 = SpecVersion1_6 /\ v1_7 = SpecVersion1_7.
Proof. repeat split. Qed.

(** Rewrite the specification's version tests to the model's. *)
Ltac gates :=
  unfold ptr_since, str_since;
  rewrite ?since_sv_lt;
  change v1_1 with SpecVersion1_1; change v1_2 with SpecVersion1_2; change v1_3 with SpecVersion1_3;
  change v1_4 with SpecVersion1_4; change v1_5 with SpecVersion1_5; change v1_6 with SpecVersion1_6;
  change v1_7 with SpecVersion1_7;
  repeat match goal with |- context [(?a <? SpecVersion1_1)%Z] => change (a <? SpecVersion1_1)%Z with (sv_lt a SpecVersion1_1) end;
  repeat match goal with |- context [(?a <? SpecVersion1_4)%Z] => change (a <? SpecVersion1_4)%Z with (sv_lt a SpecVersion1_4) end;
  repeat match goal with |- context [(?a <? SpecVersion1_5)%Z] => change (a <? SpecVersion1_5)%Z with (sv_lt a SpecVersion1_5) end;
  repeat match goal with |- context [(?a <? SpecVersion1_6)%Z] => change (a <? SpecVersion1_6)%Z with (sv_lt a SpecVersion1_6) end.

Ltac vrw := repeat match goal with H : sv_lt _ _ = _ |- _ => progress rewrite H in |- * end.
Ltac vcases sv :=
  let H := fresh in
  destruct (sv_cases sv) as [H|[H|[H|[H|[H|[H|[H|H]]]]]]]; decompose [and] H; clear H; vrw.

Lemma when_irrel {A B} (p : A -> B) b f x : (forall y, p (f y) = p y) -> p (when b f x) = p x.
Proof. intros H. destruct b; cbn; auto. Qed.

Lemma when_c_irrel {A B} (p : A -> B) b f x : (forall y, p (f y) = p y) -> p (when_c b f x) = p x.
Proof. intros H. unfold when_c. destruct (b x); auto. Qed.

Lemma each_in_place {A} (f g : A -> A) p : (forall x, f x = g x) -> each f p = in_place g p.
Proof.
  intros H. destruct p as [[l|]|]; cbn; trivial.
  rewrite (map_ext f g); trivial.
Qed.

Lemma behind_if_present {A} (f g : A -> A) p : (forall x, f x = g x) -> behind f p = if_present g p.
Proof. intros H. destruct p as [x|]; cbn; trivial. rewrite H; trivial. Qed.

(** ** Enumerations *)

Lemma str_eqb_sym a b : str_eqb a b = str_eqb b a.
Proof. apply String.eqb_sym. Qed.

Ltac enum_tac t :=
  cbn [in_enum in_open_enum one_of existsb];
  repeat match goal with
  | |- context [String.eqb ?a t] =>
      let H := fresh in destruct (String.eqb_spec a t) as [H|H]; [subst t; cbn; rewrite ?leb_sv_lt; reflexivity|]
  end.

Ltac neq_tac t :=
  repeat match goal with
  | |- context [String.eqb t ?c] =>
      replace (String.eqb t c) with false
        by (symmetry; apply String.eqb_neq; let E := fresh in intro E;
            match goal with H : _ <> t |- False => exact (H (eq_sym E)) end)
  end; cbn [orb]; rewrite ?leb_sv_lt; reflexivity.

Lemma supportsComponentType_spec sv t : supportsComponentType sv t = in_enum component_types sv t.
Proof.
  unfold supportsComponentType, component_types, one_of, str_eqb, sv_ge.
  enum_tac t. neq_tac t.
Qed.

Lemma supportsScope_spec sv t : supportsScope sv t = in_enum scopes sv t.
Proof. unfold supportsScope, scopes, one_of, str_eqb, sv_ge. enum_tac t. neq_tac t. Qed.

Lemma supportsHashAlgorithm_spec sv t : supportsHashAlgorithm sv t = in_enum hash_algorithms sv t.
Proof. unfold supportsHashAlgorithm, hash_algorithms, one_of, str_eqb, sv_ge. enum_tac t. neq_tac t. Qed.

Lemma supportsScoringMethod_spec sv t : supportsScoringMethod sv t = in_enum scoring_methods sv t.
Proof. unfold supportsScoringMethod, scoring_methods, one_of, str_eqb, sv_ge. enum_tac t. neq_tac t. Qed.

Lemma supportsExternalReferenceType_spec sv t :
  supportsExternalReferenceType sv t = in_open_enum external_reference_types v1_1 sv t.
Proof. unfold supportsExternalReferenceType, external_reference_types, one_of, str_eqb, sv_ge. enum_tac t. neq_tac t. Qed.

Lemma supportsCompositionAggregate_spec sv t :
  supportsCompositionAggregate sv t = in_open_enum composition_aggregates v1_3 sv t.
Proof. unfold supportsCompositionAggregate, composition_aggregates, one_of, str_eqb, sv_ge. enum_tac t. neq_tac t. Qed.

Lemma supportsCryptoPrimitive_spec sv t : supportsCryptoPrimitive sv t = in_open_enum crypto_primitives v1_6 sv t.
Proof. unfold supportsCryptoPrimitive, crypto_primitives, one_of, str_eqb, sv_ge. enum_tac t. neq_tac t. Qed.

Lemma supportsCryptoProtocolType_spec sv t :
  supportsCryptoProtocolType sv t = in_open_enum crypto_protocol_types v1_6 sv t.
Proof. unfold supportsCryptoProtocolType, crypto_protocol_types, one_of, str_eqb, sv_ge. enum_tac t. neq_tac t. Qed.

(** ** Records *)

(** For records without recursion: destruct, decide the version, compute. *)
Ltac small sv := gates; vcases sv; try reflexivity.

Lemma contact_spec sv c : convertOrganizationalContact sv c = contact_in sv c.
Proof. destruct c. unfold convertOrganizationalContact, contact_in. small sv. Qed.

Lemma in_place_id {A} (f : A -> A) p : (forall x, f x = x) -> in_place f p = p.
Proof. intros H. destruct p as [[l|]|]; cbn; trivial. rewrite (map_ext f id H), map_id; trivial. Qed.

Lemma if_present_id {A} (f : A -> A) p : (forall x, f x = x) -> if_present f p = p.
Proof. intros H. destruct p as [x|]; cbn; trivial. rewrite H; trivial. Qed.

Lemma contact_in_new sv c : sv_lt sv SpecVersion1_5 = false -> contact_in sv c = c.
Proof. intros H. destruct c. unfold contact_in. gates. vrw. reflexivity. Qed.

Lemma entity_spec sv o : convertOrganizationalEntity sv o = entity_in sv o.
Proof.
  destruct o as [r n a u c]. unfold convertOrganizationalEntity, entity_in.
  destruct (sv_lt sv SpecVersion1_5) eqn:E.
  - rewrite <- (each_in_place (convertOrganizationalContact sv) (contact_in sv)) by apply contact_spec.
    gates. vcases sv; try congruence; reflexivity.
  - rewrite in_place_id by (intros; apply contact_in_new, E).
    gates. vcases sv; try congruence; reflexivity.
Qed.

Lemma data_spec sv p : convertDataClassifications sv p = in_place (data_in sv) p.
Proof.
  unfold convertDataClassifications. destruct (sv_lt sv SpecVersion1_6) eqn:E; cbn [when].
  - apply each_in_place. intros d; destruct d. unfold data_in. gates. vrw. reflexivity.
  - symmetry; apply in_place_id. intros d; destruct d. unfold data_in. gates. vrw. reflexivity.
Qed.

Lemma extref_spec sv r : convertExternalReference sv r = extref_in sv r.
Proof.
  destruct r as [u c h t p]. unfold convertExternalReference, extref_in, open_enum_or, when_c.
  cbn [ExternalReference_Type].
  rewrite supportsExternalReferenceType_spec.
  destruct (in_open_enum _ _ _ _); small sv.
Qed.

Lemma extrefs_spec sv p : convertExternalReferences sv p = in_place (extref_in sv) p.
Proof. apply each_in_place, extref_spec. Qed.

Lemma filter_ext' {A} (f g : A -> bool) l : (forall x, f x = g x) -> filter f l = filter g l.
Proof. intros H. induction l as [|x l IH]; cbn; trivial. rewrite H, IH; trivial. Qed.

Lemma hashes_spec sv p : convertHashes sv p = hashes_in sv p.
Proof.
  unfold convertHashes, hashes_in, keep, nil_if_empty, non_empty.
  destruct p as [[l|]|]; cbn [option_map elems filter]; trivial.
  erewrite filter_ext'; [reflexivity|]. intros h. cbn beta. apply supportsHashAlgorithm_spec.
Qed.

Lemma party_spec sv p : convertParty sv p = party_in sv p.
Proof.
  destruct p. unfold convertParty, over_OrganizationalEntityOrContact_Organization, party_in.
  rewrite (behind_if_present _ (entity_in sv)) by apply entity_spec. reflexivity.
Qed.

Lemma licensing_spec sv l : convertLicensing sv l = licensing_in sv l.
Proof.
  destruct l. unfold convertLicensing, licensing_in.
  rewrite <- !(behind_if_present (convertParty sv) (party_in sv)) by apply party_spec. reflexivity.
Qed.

Definition license_steps (sv : SpecVersion) (c : LicenseChoice) : LicenseChoice :=
  when (sv_lt sv SpecVersion1_7) convertLicenseChoice_1_6
    (when (sv_lt sv SpecVersion1_6) (convertLicenseChoice_1_5 sv)
      (when (sv_lt sv SpecVersion1_5) convertLicenseChoice_1_4 c)).

Lemma entity_in_new sv o : sv_lt sv SpecVersion1_6 = false -> entity_in sv o = o.
Proof.
  intros H. destruct o. unfold entity_in.
  rewrite in_place_id by (intros; apply contact_in_new; vcases sv; congruence).
  gates. vcases sv; congruence || reflexivity.
Qed.

Lemma licensing_in_new sv l : sv_lt sv SpecVersion1_6 = false -> licensing_in sv l = l.
Proof.
  intros H. destruct l. unfold licensing_in.
  rewrite !if_present_id; trivial; intros p; destruct p; unfold party_in;
    rewrite if_present_id; trivial; intros; apply entity_in_new, H.
Qed.

Lemma option_map_map {A} (f g : A -> A) (o : option (list A)) :
  option_map (map g) (option_map (map f) o) = option_map (map (fun x => g (f x))) o.
Proof. destruct o; cbn; trivial. rewrite map_map; trivial. Qed.

Lemma license_steps_spec sv c : sv_lt sv SpecVersion1_1 = false -> license_steps sv c = license_choice_in sv c.
Proof.
  intros H1. destruct c as [l e d a r li p]. unfold license_steps, license_choice_in.
  destruct (sv_lt sv SpecVersion1_6) eqn:E6.
  - destruct l as [l|]; [destruct l as [lr i n k t u li' lp]|].
    + cbn [if_present LicenseChoice_License license_in]. unfold license_in.
      rewrite <- (behind_if_present (convertLicensing sv) (licensing_in sv)) by apply licensing_spec.
      gates. vcases sv; try congruence; reflexivity.
    + gates. vcases sv; try congruence; reflexivity.
  - rewrite (if_present_id (license_in sv)).
    + gates. vcases sv; try congruence; reflexivity.
    + intros x; destruct x. unfold license_in.
      rewrite (if_present_id (licensing_in sv)) by (intros; apply licensing_in_new, E6).
      gates. vcases sv; try congruence; reflexivity.
Qed.

Lemma license_steps_1_0 sv c : sv_lt sv SpecVersion1_1 = true -> named_license c = true ->
  license_steps sv (convertLicenseChoice_1_0 c) = license_choice_in sv c.
Proof.
  intros H1 Hn. destruct c as [l e d a r li p]. unfold license_steps, license_choice_in.
  destruct l as [l|]; [|discriminate]. destruct l as [lr i n k t u li' lp].
  unfold named_license in Hn. cbn [LicenseChoice_License License_ID License_Name] in Hn.
  apply negb_true_iff in Hn.
  unfold convertLicenseChoice_1_0. cbn [LicenseChoice_License License_ID License_Name if_present].
  unfold str_eqb. rewrite Hn. unfold license_in.
  gates. vcases sv; try congruence; reflexivity.
Qed.

Lemma named_1_0 c :
  match LicenseChoice_License (convertLicenseChoice_1_0 c) with Some _ => true | None => false end = named_license c.
Proof.
  destruct c as [[l|] e d a r li p]; [|reflexivity]. destruct l as [lr i n k t u li' lp].
  unfold convertLicenseChoice_1_0, named_license, str_eqb.
  cbn [LicenseChoice_License License_ID License_Name].
  destruct (String.eqb _ _ && String.eqb _ _)%bool; reflexivity.
Qed.

Lemma filter_map {A B} (f : A -> B) (p : B -> bool) l : filter p (map f l) = map f (filter (fun x => p (f x)) l).
Proof. induction l as [|x l IH]; cbn; trivial. rewrite IH. destruct (p (f x)); reflexivity. Qed.

Lemma licenses_spec sv p : convertLicenses sv p = licenses_in sv p.
Proof.
  unfold convertLicenses, licenses_in. gates.
  destruct p as [s|]; [|destruct (sv_lt sv SpecVersion1_1); reflexivity]. cbn [option_map].
  assert (Hs : forall s', when (sv_lt sv SpecVersion1_7) (option_map (map convertLicenseChoice_1_6))
     (when (sv_lt sv SpecVersion1_6) (option_map (map (convertLicenseChoice_1_5 sv)))
        (when (sv_lt sv SpecVersion1_5) (option_map (map convertLicenseChoice_1_4)) s')) = option_map (map (license_steps sv)) s').
  { intros s'. unfold license_steps. destruct s' as [l|]; vcases sv; cbn [when option_map]; rewrite ?map_map; trivial.
    rewrite map_id; reflexivity. }
  rewrite Hs. clear Hs.
  destruct (sv_lt sv SpecVersion1_1) eqn:E1; cbn [when].
  - unfold convertLicenses_1_0, nil_if_empty.
    rewrite filter_map.
    rewrite (filter_ext' _ named_license) by apply named_1_0.
    destruct s as [l|]; [|reflexivity]. cbn [elems keep].
    assert (Hl : map (license_steps sv) (map convertLicenseChoice_1_0 (filter named_license l)) =
                 map (license_choice_in sv) (filter named_license l)).
    { rewrite map_map. apply map_ext_in. intros c Hc. apply filter_In in Hc. apply license_steps_1_0; tauto. }
    unfold non_empty. destruct (filter named_license l) as [|c l'] eqn:Ef; [reflexivity|].
    cbn [map option_map in_place] in *. rewrite Hl. reflexivity.
  - destruct s as [l|]; cbn; trivial. do 2 f_equal. apply map_ext. intros; apply license_steps_spec, E1.
Qed.

Lemma identity_spec p :
  behind dropConcludedValue (convertIdentityChoice_1_5 p) =
  match p with Some i => identity_choice_in_1_5 i | None => None end.
Proof.
  destruct p as [[i [[[|x l]|]|]]|]; try reflexivity.
Qed.

Lemma evidence_spec sv p : convertEvidence sv p = ptr_since v1_3 sv (if_present (evidence_in sv) p).
Proof.
  destruct p as [e|]; [|cbn; gates; destruct (sv_lt _ _); reflexivity].
  destruct e as [i o c l y]. cbn [if_present]. unfold convertEvidence, evidence_in.
  cbn [Evidence_Identity Evidence_Occurrences Evidence_Callstack Evidence_Licenses Evidence_Copyright].
  rewrite <- identity_spec, <- licenses_spec.
  rewrite <- (each_in_place (fun o => set_EvidenceOccurrence_AdditionalContext ""
     (set_EvidenceOccurrence_Symbol "" (set_EvidenceOccurrence_Offset None (set_EvidenceOccurrence_Line None o))))
     occurrence_in_1_5) by reflexivity.
  gates. vcases sv; reflexivity.
Qed.

Lemma model_card_spec sv p : convertModelCard sv p = if_present (model_card_in sv) p.
Proof.
  apply behind_if_present. intros m. destruct m as [b mp q c]. unfold model_card_in.
  destruct c as [[]|]; cbn [if_present MLModelCard_Considerations]; unfold considerations_in; small sv.
Qed.

Lemma algorithm_spec sv a : convertAlgorithmProperties sv a = algorithm_in sv a.
Proof.
  unfold convertAlgorithmProperties, algorithm_in, open_enum_or, when_c.
  rewrite supportsCryptoPrimitive_spec, when_irrel by reflexivity.
  destruct (in_open_enum crypto_primitives v1_6 sv (CryptoAlgorithmProperties_Primitive a)); destruct a; small sv.
Qed.

Lemma certificate_spec sv c : convertCertificateProperties sv c = certificate_in sv c.
Proof. destruct c. unfold convertCertificateProperties, certificate_in. small sv. Qed.

Lemma material_spec sv c : convertRelatedCryptoMaterial sv c = material_in sv c.
Proof. destruct c. unfold convertRelatedCryptoMaterial, material_in. small sv. Qed.

Lemma cipher_suite_spec sv c : convertCipherSuite sv c = cipher_suite_in sv c.
Proof. destruct c. unfold convertCipherSuite, cipher_suite_in. small sv. Qed.

Lemma protocol_spec sv p : convertProtocolProperties sv (convertProtocolType sv p) = protocol_in sv p.
Proof.
  destruct p as [t v c k r a]. unfold convertProtocolProperties, convertProtocolType, protocol_in, open_enum_or, when_c.
  cbn [CryptoProtocolProperties_Type].
  rewrite supportsCryptoProtocolType_spec.
  rewrite <- (each_in_place (convertCipherSuite sv) (cipher_suite_in sv)) by apply cipher_suite_spec.
  destruct (in_open_enum _ _ _ _); small sv.
Qed.

Lemma crypto_spec sv p : convertCryptoProperties sv p = if_present (crypto_in sv) p.
Proof.
  apply behind_if_present. intros c. destruct c as [a g c m p' o]. unfold crypto_in.
  rewrite <- (behind_if_present (convertAlgorithmProperties sv) (algorithm_in sv)) by apply algorithm_spec.
  rewrite <- (behind_if_present (convertCertificateProperties sv) (certificate_in sv)) by apply certificate_spec.
  rewrite <- (behind_if_present (convertRelatedCryptoMaterial sv) (material_in sv)) by apply material_spec.
  rewrite <- (behind_if_present (fun p => convertProtocolProperties sv (convertProtocolType sv p)) (protocol_in sv)) by apply protocol_spec.
  destruct p'; reflexivity.
Qed.

(** ** Components *)

(** Skip the steps of a pipeline that do not touch the field. *)
Ltac skip := repeat first [ rewrite when_irrel by reflexivity | rewrite when_c_irrel by reflexivity ].

Lemma if_const {A} (b : bool) (x : A) : (if b then x else x) = x.
Proof. destruct b; reflexivity. Qed.

Definition id_component (c : Component) : Component := c.

Lemma pedigree_in_id {C} sv (p : Pedigree_ C) :
  pedigree_in sv (fun c => c) p = set_Pedigree_Patches (ptr_since v1_2 sv (Pedigree_Patches p)) p.
Proof. destruct p. unfold pedigree_in. rewrite !in_place_id by reflexivity. reflexivity. Qed.

(** Read a field of the result of a pipeline: drop, from the outside, every step
    that does not touch the field. *)
Lemma irrel {A B} (p : A -> B) f x : (forall y, p (f y) = p y) -> p (f x) = p x.
Proof. auto. Qed.
Lemma relev {A B} (p : A -> B) (f : A -> A) (g : B -> B) x : (forall y, p (f y) = g (p y)) -> p (f x) = g (p x).
Proof. auto. Qed.
Ltac peel1 :=
  match goal with
  | |- ?p (when ?b ?f ?x) = ?r => rewrite (when_irrel p b f x)
      by (let y := fresh in intro y; first [reflexivity | cbv beta; rewrite when_c_irrel by reflexivity; reflexivity])
  | |- ?p (when_c ?b ?f ?x) = ?r => rewrite (when_c_irrel p b f x) by (let y := fresh in intro y; reflexivity)
  | |- ?p (?f ?x) = ?r => rewrite (irrel p f x) by (let y := fresh in intro y; reflexivity)
  end.
Ltac peel := repeat peel1.
Ltac whens := repeat match goal with
  | |- context [when true ?f ?x] => change (when true f x) with (f x); cbv beta
  | |- context [when false ?f ?x] => change (when false f x) with x
  end.
Ltac field_tac sv := peel; gates; vcases sv; whens; peel; reflexivity.

Lemma behind_id_gate {A B} (f : A -> B) (b : bool) (p : option A) :
  if_present f (if b then None else p) = if b then None else if_present f p.
Proof. destruct b; reflexivity. Qed.

Lemma in_place_gate {A B} (f : A -> B) (b : bool) (p : option (option (list A))) :
  in_place f (if b then None else p) = if b then None else in_place f p.
Proof. destruct b; reflexivity. Qed.

Lemma componentConverter_eq sv c : componentConverter sv c = component_in_ (fun c => c) sv c.
Proof.
  apply ext_Component; unfold component_in_;
    (lazymatch goal with |- _ = ?f _ => cbn [f] end);
    unfold componentConverter; peel.
  - field_tac sv.
  - field_tac sv.
  - (* type *)
    unfold when_c at 1, enum_or.
    match goal with |- Component_Type (if negb (supportsComponentType sv (Component_Type ?x)) then _ else _) = _ =>
      assert (E : Component_Type x = Component_Type c) by (peel; reflexivity)
    end.
    rewrite E, supportsComponentType_spec.
    destruct (in_enum component_types sv (Component_Type c)); cbn [negb]; [exact E|reflexivity].
  - field_tac sv.
  - field_tac sv.
  - field_tac sv.
  - field_tac sv.
  - reflexivity.
  - reflexivity.
  - reflexivity.
  - (* version *)
    gates. destruct (sv_lt sv SpecVersion1_4); whens; cbn [andb].
    + unfold when_c at 1.
      match goal with |- Component_Version (if str_eqb (Component_Version ?x) "" then _ else _) = _ =>
        assert (E : Component_Version x = Component_Version c) by (peel; reflexivity)
      end.
      rewrite E. unfold str_eqb. destruct (String.eqb (Component_Version c) ""); [reflexivity|exact E].
    + peel; reflexivity.
  - reflexivity.
  - (* scope *)
    unfold when_c at 1, enum_or.
    match goal with |- Component_Scope (if negb (supportsScope sv (Component_Scope ?x)) then _ else _) = _ =>
      assert (E : Component_Scope x = Component_Scope c) by (peel; reflexivity)
    end.
    rewrite E, supportsScope_spec.
    destruct (in_enum scopes sv (Component_Scope c)); cbn [negb]; [exact E|reflexivity].
  - (* hashes *)
    rewrite (relev Component_Hashes (over_Component_Hashes (convertHashes sv)) (convertHashes sv)) by reflexivity.
    rewrite hashes_spec. f_equal. peel. reflexivity.
  - (* licenses *)
    rewrite (relev Component_Licenses (over_Component_Licenses (convertLicenses sv)) (convertLicenses sv)) by reflexivity.
    rewrite licenses_spec. f_equal. peel. reflexivity.
  - reflexivity.
  - reflexivity.
  - reflexivity.
  - field_tac sv.
  - field_tac sv.
  - field_tac sv.
  - (* modified *)
    gates. vcases sv; whens; peel; try reflexivity; cbn; destruct (Component_Modified c); reflexivity.
  - (* pedigree *)
    assert (Hp : if_present (pedigree_in sv (fun c0 => c0)) (Component_Pedigree c) =
                 behind (fun p => set_Pedigree_Patches (ptr_since v1_2 sv (Pedigree_Patches p)) p) (Component_Pedigree c)).
    { destruct (Component_Pedigree c); cbn; trivial. rewrite pedigree_in_id; reflexivity. }
    rewrite Hp; clear Hp. unfold behind.
    assert (Hq : forall p : Pedigree, set_Pedigree_Patches (Pedigree_Patches p) p = p) by (intros []; reflexivity).
    gates. vcases sv; whens; peel; try reflexivity.
    all: try (change (Component_Pedigree (over_Component_Pedigree (fun p => option_map (set_Pedigree_Patches None) p)
                (set_Component_MIMEType "" (set_Component_Author "" c))))
              with (option_map (set_Pedigree_Patches None) (Component_Pedigree c))).
    all: destruct (Component_Pedigree c); cbn [option_map]; gates; vrw; rewrite ?Hq; reflexivity.
  - (* external references *)
    rewrite (relev Component_ExternalReferences (over_Component_ExternalReferences (convertExternalReferences sv)) (convertExternalReferences sv)) by reflexivity.
    rewrite extrefs_spec.
    match goal with |- in_place _ ?x = _ => assert (E : x = ptr_since v1_1 sv (Component_ExternalReferences c)) by (field_tac sv) end.
    rewrite E. gates. apply in_place_gate.
  - field_tac sv.
  - peel; rewrite in_place_id; reflexivity.
  - (* evidence *)
    rewrite (relev Component_Evidence (over_Component_Evidence (convertEvidence sv)) (convertEvidence sv)) by reflexivity.
    rewrite evidence_spec. do 2 f_equal. peel. reflexivity.
  - field_tac sv.
  - (* model card *)
    rewrite (relev Component_ModelCard (over_Component_ModelCard (convertModelCard sv)) (convertModelCard sv)) by reflexivity.
    rewrite model_card_spec.
    match goal with |- if_present _ ?x = _ => assert (E : x = ptr_since v1_5 sv (Component_ModelCard c)) by (field_tac sv) end.
    rewrite E. gates. apply behind_id_gate.
  - field_tac sv.
  - (* crypto *)
    rewrite (relev Component_CryptoProperties (over_Component_CryptoProperties (convertCryptoProperties sv)) (convertCryptoProperties sv)) by reflexivity.
    rewrite crypto_spec.
    match goal with |- if_present _ ?x = _ => assert (E : x = ptr_since v1_6 sv (Component_CryptoProperties c)) by (field_tac sv) end.
    rewrite E. gates. apply behind_id_gate.
  - field_tac sv.
  - field_tac sv.
  - field_tac sv.
  - field_tac sv.
  - reflexivity.
Qed.

(** *** Induction over nested components *)

(** [x] is directly inside [c]. *)
Definition child_component (c x : Component) : Prop :=
  In x (members (Component_Components c)) \/
  exists p, Component_Pedigree c = Some p /\
    (In x (members (Pedigree_Ancestors p)) \/ In x (members (Pedigree_Descendants p)) \/ In x (members (Pedigree_Variants p))).

Lemma component_induction (P : Component -> Prop) :
  (forall c, (forall x, child_component c x -> P x) -> P c) -> forall c, P c.
Proof.
  intros H. fix IH 1. intros c. apply H.
  assert (HL : forall p : ptr (slice Component), (forall x, In x (members p) -> P x) \/ True) by (intros; right; exact I).
  clear HL.
  destruct c as [f1 f2 f3 f4 f5 f6 f7 f8 f9 f10 f11 f12 f13 f14 f15 f16 f17 f18 f19 f20 f21 f22 ped f24 f25 comps f27 f28 f29 f30 f31 f32 f33 f34 f35 f36].
  intros x [Hx|[p [Hp Hx]]]; cbn [Component_Components Component_Pedigree] in *.
  - revert x Hx. destruct comps as [[l|]|]; cbn [members]; [|intros x []|intros x []].
    induction l as [|y l IHl]; intros x Hx; [destruct Hx|].
    destruct Hx as [E|Hx]; [rewrite <- E; apply IH|apply IHl, Hx].
  - destruct ped as [q|]; [|discriminate]. injection Hp as Hp. rewrite <- Hp in Hx. clear p Hp.
    destruct q as [a d v cm pa no]. cbn [Pedigree_Ancestors Pedigree_Descendants Pedigree_Variants] in Hx.
    destruct Hx as [Hx|[Hx|Hx]]; revert x Hx.
    + destruct a as [[l|]|]; cbn [members]; [|intros x []|intros x []].
      induction l as [|y l IHl]; intros x Hx; [destruct Hx|].
      destruct Hx as [E|Hx]; [rewrite <- E; apply IH|apply IHl, Hx].
    + destruct d as [[l|]|]; cbn [members]; [|intros x []|intros x []].
      induction l as [|y l IHl]; intros x Hx; [destruct Hx|].
      destruct Hx as [E|Hx]; [rewrite <- E; apply IH|apply IHl, Hx].
    + destruct v as [[l|]|]; cbn [members]; [|intros x []|intros x []].
      induction l as [|y l IHl]; intros x Hx; [destruct Hx|].
      destruct Hx as [E|Hx]; [rewrite <- E; apply IH|apply IHl, Hx].
Qed.

Lemma in_place_ext_in {A B} (f g : A -> B) p : (forall x, In x (members p) -> f x = g x) -> in_place f p = in_place g p.
Proof.
  intros H. destruct p as [[l|]|]; cbn in *; trivial. do 2 f_equal. apply map_ext_in, H.
Qed.

Lemma component_in_ext f g sv c : (forall x, child_component c x -> f x = g x) -> component_in_ f sv c = component_in_ g sv c.
Proof.
  intros H. unfold component_in_.
  rewrite (in_place_ext_in f g) by (intros x Hx; apply H; left; exact Hx).
  replace (if_present (pedigree_in sv f) (Component_Pedigree c)) with (if_present (pedigree_in sv g) (Component_Pedigree c)).
  { reflexivity. }
  destruct (Component_Pedigree c) as [p|] eqn:Ep; cbn [if_present]; trivial. f_equal. unfold pedigree_in.
  rewrite (in_place_ext_in f g (Pedigree_Ancestors p)) by (intros x Hx; apply H; right; exists p; tauto).
  rewrite (in_place_ext_in f g (Pedigree_Descendants p)) by (intros x Hx; apply H; right; exists p; tauto).
  rewrite (in_place_ext_in f g (Pedigree_Variants p)) by (intros x Hx; apply H; right; exists p; tauto).
  reflexivity.
Qed.

Lemma in_place_each {A B} (g : A -> B) (f : A -> A) p : in_place g (each f p) = in_place (fun x => g (f x)) p.
Proof. destruct p as [[l|]|]; cbn; trivial. rewrite map_map; trivial. Qed.

Lemma in_place_in_place {A B C} (g : B -> C) (f : A -> B) p : in_place g (in_place f p) = in_place (fun x => g (f x)) p.
Proof. destruct p as [[l|]|]; cbn; trivial. rewrite map_map; trivial. Qed.

Lemma if_present_if_present {A B C} (g : B -> C) (f : A -> B) p : if_present g (if_present f p) = if_present (fun x => g (f x)) p.
Proof. destruct p; reflexivity. Qed.

(** Descending first and converting afterwards is converting everything. *)
Lemma component_in_descend f sv c : component_in_ (fun c => c) sv (descendComponent f c) = component_in_ f sv c.
Proof.
  unfold descendComponent.
  destruct c as [f1 f2 f3 f4 f5 f6 f7 f8 f9 f10 f11 f12 f13 f14 f15 f16 f17 f18 f19 f20 f21 f22 ped f24 f25 comps f27 f28 f29 f30 f31 f32 f33 f34 f35 f36].
  apply ext_Component; try reflexivity.
  - unfold component_in_. cbn. f_equal. destruct ped as [p|]; cbn; trivial. f_equal.
    unfold map_pedigree, pedigree_in. destruct p. cbn. rewrite !in_place_each. reflexivity.
  - unfold component_in_. cbn. rewrite in_place_each. reflexivity.
Qed.

(** Converting first and descending afterwards, too. *)
Lemma component_in_descend' f sv c : descendComponent f (component_in_ (fun c => c) sv c) = component_in_ f sv c.
Proof.
  unfold descendComponent.
  destruct c as [f1 f2 f3 f4 f5 f6 f7 f8 f9 f10 f11 f12 f13 f14 f15 f16 f17 f18 f19 f20 f21 f22 ped f24 f25 comps f27 f28 f29 f30 f31 f32 f33 f34 f35 f36].
  apply ext_Component; try reflexivity.
  - unfold component_in_. cbn. gates. destruct (sv_lt sv SpecVersion1_1); [reflexivity|].
    destruct ped as [p|]; cbn; trivial. f_equal.
    unfold map_pedigree, pedigree_in. destruct p as [a d v cm pa no]. cbn.
    rewrite !in_place_id by reflexivity.
    rewrite !(each_in_place f f) by reflexivity. reflexivity.
  - unfold component_in_. cbn. rewrite in_place_id by reflexivity. apply each_in_place. reflexivity.
Qed.

Lemma recurseComponent_fix sv c : recurseComponent sv c = componentConverter sv (descendComponent (recurseComponent sv) c).
Proof. destruct c; reflexivity. Qed.

Lemma component_in_fix sv c : component_in sv c = component_in_ (component_in sv) sv c.
Proof. destruct c; reflexivity. Qed.

(** The order of the Go code: first the component, then everything inside it. *)
Lemma recurseComponent_unfold sv c : recurseComponent sv c = descendComponent (recurseComponent sv) (componentConverter sv c).
Proof. rewrite recurseComponent_fix, !componentConverter_eq, component_in_descend, component_in_descend'. reflexivity. Qed.

Lemma component_spec sv c : recurseComponent sv c = component_in sv c.
Proof.
  induction c as [c IH] using component_induction.
  rewrite recurseComponent_fix, componentConverter_eq, component_in_descend, component_in_fix.
  apply component_in_ext, IH.
Qed.

(** ** Services *)

Lemma data_in_new sv d : sv_lt sv SpecVersion1_6 = false -> data_in sv d = d.
Proof. intros H. destruct d. unfold data_in. gates. vrw. reflexivity. Qed.

Lemma serviceConverter_eq sv s : serviceConverter sv s = service_in_ (fun s => s) sv s.
Proof.
  apply ext_Service; unfold service_in_;
    (lazymatch goal with |- _ = ?f _ => cbn [f] end);
    unfold serviceConverter; peel; try (reflexivity || field_tac sv).
  - (* provider *)
    rewrite (relev Service_Provider (over_Service_Provider (behind (convertOrganizationalEntity sv)))
               (behind (convertOrganizationalEntity sv))) by reflexivity.
    rewrite (behind_if_present _ (entity_in sv)) by apply entity_spec. f_equal. peel. reflexivity.
  - (* data *)
    destruct (sv_lt sv SpecVersion1_6) eqn:E; whens.
    + rewrite (relev Service_Data (over_Service_Data (convertDataClassifications sv)) (convertDataClassifications sv)) by reflexivity.
      rewrite data_spec. f_equal. peel. reflexivity.
    + peel. symmetry. apply in_place_id. intros; apply data_in_new, E.
  - (* external references *)
    rewrite (relev Service_ExternalReferences (over_Service_ExternalReferences (convertExternalReferences sv)) (convertExternalReferences sv)) by reflexivity.
    rewrite extrefs_spec. f_equal. peel. reflexivity.
  - peel; rewrite in_place_id; reflexivity.
Qed.

Definition child_service (s x : Service) : Prop := In x (members (Service_Services s)).

Lemma service_induction (P : Service -> Prop) :
  (forall s, (forall x, child_service s x -> P x) -> P s) -> forall s, P s.
Proof.
  intros H. fix IH 1. intros s. apply H. unfold child_service.
  destruct s as [f1 f2 f3 f4 f5 f6 f7 f8 f9 f10 f11 f12 f13 subs f15 f16 f17 f18 f19].
  cbn [Service_Services]. destruct subs as [[l|]|]; cbn [members]; [|intros x []|intros x []].
  induction l as [|y l IHl]; intros x Hx; [destruct Hx|].
  destruct Hx as [E|Hx]; [rewrite <- E; apply IH|apply IHl, Hx].
Qed.

Lemma service_in_ext f g sv s : (forall x, child_service s x -> f x = g x) -> service_in_ f sv s = service_in_ g sv s.
Proof. intros H. unfold service_in_. rewrite (in_place_ext_in f g) by exact H. reflexivity. Qed.

Lemma service_in_descend f sv s : service_in_ (fun s => s) sv (descendService f s) = service_in_ f sv s.
Proof.
  unfold descendService. apply ext_Service; try reflexivity.
  unfold service_in_. cbn. rewrite in_place_each. reflexivity.
Qed.

Lemma service_in_descend' f sv s : descendService f (service_in_ (fun s => s) sv s) = service_in_ f sv s.
Proof.
  unfold descendService. apply ext_Service; try reflexivity.
  unfold service_in_. cbn. rewrite in_place_id by reflexivity. apply each_in_place. reflexivity.
Qed.

Lemma recurseService_fix sv s : recurseService sv s = serviceConverter sv (descendService (recurseService sv) s).
Proof. destruct s; reflexivity. Qed.

Lemma service_in_fix sv s : service_in sv s = service_in_ (service_in sv) sv s.
Proof. destruct s; reflexivity. Qed.

Lemma recurseService_unfold sv s : recurseService sv s = descendService (recurseService sv) (serviceConverter sv s).
Proof. rewrite recurseService_fix, !serviceConverter_eq, service_in_descend, service_in_descend'. reflexivity. Qed.

Lemma service_spec sv s : recurseService sv s = service_in sv s.
Proof.
  induction s as [s IH] using service_induction.
  rewrite recurseService_fix, serviceConverter_eq, service_in_descend, service_in_fix.
  apply service_in_ext, IH.
Qed.

(** ** Tools *)

Lemma tool_spec sv t : convertTool sv t = tool_in sv t.
Proof.
  destruct t as [v n r h e]. unfold convertTool, tool_in.
  rewrite <- hashes_spec, <- extrefs_spec.
  destruct (sv_lt sv SpecVersion1_4) eqn:E; gates; vrw; reflexivity.
Qed.

Lemma component_as_tool_spec c : convertComponentToTool c = component_as_tool c.
Proof. reflexivity. Qed.

Lemma service_as_tool_spec s : convertServiceToTool s = service_as_tool s.
Proof. reflexivity. Qed.

Lemma ptr_elems_members {A} (p : ptr (slice A)) : ptr_elems p = members p.
Proof. destruct p as [[l|]|]; reflexivity. Qed.

Lemma tools_spec sv p : convertTools sv p = if_present (tools_in sv) p.
Proof.
  apply behind_if_present. intros t. destruct t as [tl c s]. unfold tools_in.
  gates. destruct (sv_lt sv SpecVersion1_5) eqn:E; whens.
  - unfold flattenTools, all_tools.
    cbn [ToolsChoice_Tools ToolsChoice_Components ToolsChoice_Services].
    rewrite (ptr_elems_members c), (ptr_elems_members s).
    rewrite (map_ext convertComponentToTool component_as_tool) by apply component_as_tool_spec.
    rewrite (map_ext convertServiceToTool service_as_tool) by apply service_as_tool_spec.
    set (ct := (map component_as_tool (members c) ++ map service_as_tool (members s))%list). clearbody ct.
    unfold over_ToolsChoice_Services, over_ToolsChoice_Tools, set_ToolsChoice_Services, set_ToolsChoice_Tools.
    cbn [ToolsChoice_Tools ToolsChoice_Components ToolsChoice_Services each option_map].
    f_equal.
    rewrite (each_in_place (convertTool sv) (tool_in sv)) by apply tool_spec.
    destruct ct as [|x ct]; destruct tl as [[[|y tl]|]|]; cbn [members app in_place elems map]; try reflexivity; rewrite ?app_nil_r; reflexivity.
  - unfold over_ToolsChoice_Services, over_ToolsChoice_Tools, set_ToolsChoice_Services, set_ToolsChoice_Tools.
    cbn [ToolsChoice_Tools ToolsChoice_Components ToolsChoice_Services].
    f_equal.
    + apply each_in_place, tool_spec.
    + apply each_in_place. intros x. unfold over_Service_Provider, tool_service_in.
      f_equal. apply behind_if_present, entity_spec.
Qed.

(** ** Vulnerabilities, compositions, annotations *)

Lemma rating_spec sv r : convertRating sv r = rating_in sv r.
Proof.
  unfold convertRating, rating_in, when_c, enum_or. rewrite supportsScoringMethod_spec.
  destruct (in_enum scoring_methods sv (VulnerabilityRating_Method r)); destruct r; reflexivity.
Qed.

Lemma credits_spec sv c : convertCredits sv c = credits_in sv c.
Proof.
  destruct c as [o i]. unfold credits_in.
  rewrite <- (each_in_place (convertOrganizationalEntity sv) (entity_in sv)) by apply entity_spec.
  rewrite <- (each_in_place (convertOrganizationalContact sv) (contact_in sv)) by apply contact_spec.
  reflexivity.
Qed.

Lemma credits_in_new sv c : sv_lt sv SpecVersion1_6 = false -> credits_in sv c = c.
Proof.
  intros H. destruct c as [o i]. unfold credits_in.
  rewrite !in_place_id; trivial; intros x; [apply contact_in_new; vcases sv; congruence|apply entity_in_new, H].
Qed.

Lemma vulnerability_spec sv v : convertVulnerability sv v = vulnerability_in sv v.
Proof.
  apply ext_Vulnerability; unfold vulnerability_in;
    (lazymatch goal with |- _ = ?f _ => cbn [f] end);
    unfold convertVulnerability; peel; try (reflexivity || field_tac sv).
  - rewrite (relev Vulnerability_Ratings (over_Vulnerability_Ratings (each (convertRating sv))) (each (convertRating sv))) by reflexivity.
    rewrite (each_in_place _ (rating_in sv)) by apply rating_spec. f_equal. peel. reflexivity.
  - destruct (sv_lt sv SpecVersion1_6) eqn:E; whens.
    + rewrite (relev Vulnerability_Credits (over_Vulnerability_Credits (behind (convertCredits sv))) (behind (convertCredits sv))) by reflexivity.
      rewrite (behind_if_present _ (credits_in sv)) by apply credits_spec. f_equal. peel. reflexivity.
    + rewrite if_present_id by (intros; apply credits_in_new, E). peel. reflexivity.
  - rewrite (relev Vulnerability_Tools (over_Vulnerability_Tools (convertTools sv)) (convertTools sv)) by reflexivity.
    apply tools_spec.
  - destruct (Vulnerability_Analysis v) as [a|] eqn:Ea; cbn [if_present]; unfold analysis_in; gates;
      destruct (sv_lt sv SpecVersion1_5) eqn:E; whens; peel.
    + cbn. rewrite Ea. reflexivity.
    + cbn. rewrite Ea. destruct a; reflexivity.
    + cbn. rewrite Ea. reflexivity.
    + cbn. rewrite Ea. reflexivity.
Qed.

Lemma composition_spec sv c : convertComposition sv c = composition_in sv c.
Proof.
  unfold convertComposition, composition_in, open_enum_or, when_c.
  rewrite supportsCompositionAggregate_spec, when_irrel by reflexivity.
  destruct (in_open_enum composition_aggregates v1_3 sv (Composition_Aggregate c)); destruct c; small sv.
Qed.

Lemma annotations_spec sv p : convertAnnotations sv p = in_place (annotation_in sv) p.
Proof.
  unfold convertAnnotations. destruct (sv_lt sv SpecVersion1_6) eqn:E; whens.
  - apply each_in_place. intros a. unfold over_Annotation_Annotator, annotation_in.
    rewrite (behind_if_present (convertAnnotator sv) (annotator_in sv)).
    + destruct a; reflexivity.
    + intros x. unfold annotator_in. gates. rewrite E. destruct x as [o i c s].
      rewrite <- (behind_if_present (convertOrganizationalEntity sv) (entity_in sv)) by apply entity_spec.
      rewrite <- (behind_if_present (recurseService sv) (service_in sv)) by apply service_spec.
      reflexivity.
  - symmetry. apply in_place_id. intros a. unfold annotation_in.
    rewrite if_present_id.
    + destruct a; reflexivity.
    + intros x. unfold annotator_in. gates. rewrite E. reflexivity.
Qed.

(** ** The document *)

Lemma metadata_spec sv m : convertMetadata sv m = metadata_in sv m.
Proof.
  apply ext_Metadata; unfold metadata_in;
    (lazymatch goal with |- _ = ?f _ => cbn [f] end);
    unfold convertMetadata; peel; try (reflexivity || field_tac sv).
  - rewrite (relev Metadata_Tools (over_Metadata_Tools (convertTools sv)) (convertTools sv)) by reflexivity.
    rewrite tools_spec. f_equal. peel. reflexivity.
  - rewrite (relev Metadata_Authors (over_Metadata_Authors (each (convertOrganizationalContact sv))) (each (convertOrganizationalContact sv))) by reflexivity.
    rewrite (each_in_place _ (contact_in sv)) by apply contact_spec. f_equal. peel. reflexivity.
  - rewrite (relev Metadata_Component (over_Metadata_Component (behind (recurseComponent sv))) (behind (recurseComponent sv))) by reflexivity.
    rewrite (behind_if_present _ (component_in sv)) by apply component_spec. f_equal. peel. reflexivity.
  - rewrite (relev Metadata_Manufacture (over_Metadata_Manufacture (behind (convertOrganizationalEntity sv))) (behind (convertOrganizationalEntity sv))) by reflexivity.
    rewrite (behind_if_present _ (entity_in sv)) by apply entity_spec. f_equal. peel. reflexivity.
  - rewrite (relev Metadata_Supplier (over_Metadata_Supplier (behind (convertOrganizationalEntity sv))) (behind (convertOrganizationalEntity sv))) by reflexivity.
    rewrite (behind_if_present _ (entity_in sv)) by apply entity_spec. f_equal. peel. reflexivity.
  - rewrite (relev Metadata_Licenses (over_Metadata_Licenses (convertLicenses sv)) (convertLicenses sv)) by reflexivity.
    rewrite licenses_spec.
    match goal with |- licenses_in _ ?x = _ => assert (E : x = ptr_since v1_3 sv (Metadata_Licenses m)) by (field_tac sv) end.
    rewrite E. gates. destruct (sv_lt sv SpecVersion1_3); [|reflexivity].
    unfold licenses_in. destruct (_ <? _)%Z; reflexivity.
Qed.

Lemma namespace_spec sv : map_get xmlNamespaces sv = namespace_of sv.
Proof.
  unfold namespace_of, is_version, v1_0, v1_7.
  destruct (Z.leb_spec 1 sv); cbn [andb].
  - destruct (Z.leb_spec sv 8); cbn [andb].
    + assert (sv = 1 \/ sv = 2 \/ sv = 3 \/ sv = 4 \/ sv = 5 \/ sv = 6 \/ sv = 7 \/ sv = 8)%Z as Hs by lia.
      destruct Hs as [->|[->|[->|[->|[->|[->|[->| ->]]]]]]]; reflexivity.
    + cbn [map_get xmlNamespaces].
      unfold SpecVersion1_0, SpecVersion1_1, SpecVersion1_2, SpecVersion1_3, SpecVersion1_4, SpecVersion1_5, SpecVersion1_6, SpecVersion1_7.
      repeat match goal with |- context [Z.eqb ?a ?b] => destruct (Z.eqb_spec a b); [lia|] end. reflexivity.
  - cbn [map_get xmlNamespaces].
    unfold SpecVersion1_0, SpecVersion1_1, SpecVersion1_2, SpecVersion1_3, SpecVersion1_4, SpecVersion1_5, SpecVersion1_6, SpecVersion1_7.
    repeat match goal with |- context [Z.eqb ?a ?b] => destruct (Z.eqb_spec a b); [lia|] end. reflexivity.
Qed.

Lemma schema_spec sv : map_get jsonSchemas sv = schema_of sv.
Proof.
  unfold schema_of, is_version, v1_0, v1_7.
  destruct (Z.leb_spec 1 sv); cbn [andb].
  - destruct (Z.leb_spec sv 8); cbn [andb].
    + assert (sv = 1 \/ sv = 2 \/ sv = 3 \/ sv = 4 \/ sv = 5 \/ sv = 6 \/ sv = 7 \/ sv = 8)%Z as Hs by lia.
      destruct Hs as [->|[->|[->|[->|[->|[->|[->| ->]]]]]]]; reflexivity.
    + cbn [map_get jsonSchemas].
      unfold SpecVersion1_0, SpecVersion1_1, SpecVersion1_2, SpecVersion1_3, SpecVersion1_4, SpecVersion1_5, SpecVersion1_6, SpecVersion1_7.
      repeat match goal with |- context [Z.eqb ?a ?b] => destruct (Z.eqb_spec a b); [lia|] end. reflexivity.
  - cbn [map_get jsonSchemas].
    unfold SpecVersion1_0, SpecVersion1_1, SpecVersion1_2, SpecVersion1_3, SpecVersion1_4, SpecVersion1_5, SpecVersion1_6, SpecVersion1_7.
    repeat match goal with |- context [Z.eqb ?a ?b] => destruct (Z.eqb_spec a b); [lia|] end. reflexivity.
Qed.

Lemma dependency_in_new sv d : sv_lt sv SpecVersion1_6 = false -> dependency_in sv d = d.
Proof. intros H. destruct d. unfold dependency_in. gates. vrw. reflexivity. Qed.

Lemma dependency_in_old sv d : sv_lt sv SpecVersion1_6 = true -> set_Dependency_Provides None d = dependency_in sv d.
Proof. intros H. destruct d. unfold dependency_in. gates. vrw. reflexivity. Qed.

Lemma definitions_in_new sv d : sv_lt sv SpecVersion1_7 = false -> definitions_in sv d = d.
Proof. intros H. destruct d. unfold definitions_in. gates. vrw. reflexivity. Qed.

Lemma definitions_in_old sv d : sv_lt sv SpecVersion1_7 = true -> set_Definitions_Patents None d = definitions_in sv d.
Proof. intros H. destruct d. unfold definitions_in. gates. vrw. reflexivity. Qed.

Theorem convert_spec sv b : convert sv b = bom_in sv b.
Proof.
  apply ext_BOM; unfold bom_in;
    (lazymatch goal with |- _ = ?f _ => cbn [f] end);
    unfold convert; peel; try (reflexivity || field_tac sv).
  - apply namespace_spec.
  - apply schema_spec.
  - rewrite (relev BOM_Metadata (over_BOM_Metadata (behind (convertMetadata sv))) (behind (convertMetadata sv))) by reflexivity.
    rewrite (behind_if_present _ (metadata_in sv)) by apply metadata_spec.
    match goal with |- if_present _ ?x = _ => assert (E : x = ptr_since v1_2 sv (BOM_Metadata b)) by (field_tac sv) end.
    rewrite E. gates. apply behind_id_gate.
  - rewrite (relev BOM_Components (over_BOM_Components (each (recurseComponent sv))) (each (recurseComponent sv))) by reflexivity.
    rewrite (each_in_place _ (component_in sv)) by apply component_spec. f_equal. peel. reflexivity.
  - rewrite (relev BOM_Services (over_BOM_Services (each (recurseService sv))) (each (recurseService sv))) by reflexivity.
    rewrite (each_in_place _ (service_in sv)) by apply service_spec.
    match goal with |- in_place _ ?x = _ => assert (E : x = ptr_since v1_2 sv (BOM_Services b)) by (field_tac sv) end.
    rewrite E. gates. apply in_place_gate.
  - rewrite (relev BOM_ExternalReferences (over_BOM_ExternalReferences (convertExternalReferences sv)) (convertExternalReferences sv)) by reflexivity.
    rewrite extrefs_spec.
    match goal with |- in_place _ ?x = _ => assert (E : x = ptr_since v1_1 sv (BOM_ExternalReferences b)) by (field_tac sv) end.
    rewrite E. gates. apply in_place_gate.
  - destruct (sv_lt sv SpecVersion1_6) eqn:E6; whens.
    + rewrite (relev BOM_Dependencies (over_BOM_Dependencies (each (set_Dependency_Provides None))) (each (set_Dependency_Provides None))) by reflexivity.
      rewrite (each_in_place _ (dependency_in sv)) by (intros; apply dependency_in_old, E6).
      match goal with |- in_place _ ?x = _ => assert (E : x = ptr_since v1_2 sv (BOM_Dependencies b)) by (field_tac sv) end.
      rewrite E. gates. apply in_place_gate.
    + rewrite in_place_id by (intros; apply dependency_in_new, E6). peel. field_tac sv.
  - rewrite (relev BOM_Compositions (over_BOM_Compositions (each (convertComposition sv))) (each (convertComposition sv))) by reflexivity.
    rewrite (each_in_place _ (composition_in sv)) by apply composition_spec.
    match goal with |- in_place _ ?x = _ => assert (E : x = ptr_since v1_3 sv (BOM_Compositions b)) by (field_tac sv) end.
    rewrite E. gates. apply in_place_gate.
  - rewrite (relev BOM_Vulnerabilities (over_BOM_Vulnerabilities (each (convertVulnerability sv))) (each (convertVulnerability sv))) by reflexivity.
    rewrite (each_in_place _ (vulnerability_in sv)) by apply vulnerability_spec.
    match goal with |- in_place _ ?x = _ => assert (E : x = ptr_since v1_4 sv (BOM_Vulnerabilities b)) by (field_tac sv) end.
    rewrite E. gates. apply in_place_gate.
  - rewrite (relev BOM_Annotations (over_BOM_Annotations (convertAnnotations sv)) (convertAnnotations sv)) by reflexivity.
    rewrite annotations_spec.
    match goal with |- in_place _ ?x = _ => assert (E : x = ptr_since v1_5 sv (BOM_Annotations b)) by (field_tac sv) end.
    rewrite E. gates. apply in_place_gate.
  - (* definitions *)
    destruct (sv_lt sv SpecVersion1_7) eqn:E7; whens.
    + match goal with |- _ = ?r => change (BOM_Definitions (over_BOM_Definitions (behind (set_Definitions_Patents None)) (set_BOM_Citations None
          (when (sv_lt sv SpecVersion1_6) (fun b => set_BOM_Definitions None (set_BOM_Declarations None b)) b))) = r) || idtac end.
      rewrite (relev BOM_Definitions (over_BOM_Definitions (behind (set_Definitions_Patents None))) (behind (set_Definitions_Patents None))) by reflexivity.
      rewrite (behind_if_present _ (definitions_in sv)) by (intros; apply definitions_in_old, E7).
      match goal with |- if_present _ ?x = _ => assert (E : x = ptr_since v1_6 sv (BOM_Definitions b)) by (field_tac sv) end.
      rewrite E. gates. apply behind_id_gate.
    + rewrite if_present_id by (intros; apply definitions_in_new, E7). peel. field_tac sv.
Qed.
