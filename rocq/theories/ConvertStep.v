(** Converting in two steps, newest version first, is converting once, table entry
    by table entry (for C11 and C12). *)
From Verif Require Import Base Types TypesFacts Version ConvertModel ConvertSpec ConvertReach ConvertProofs ConvertReachProofs.
From Coq Require Import Lia.
Local Open Scope string_scope.
Local Open Scope Z_scope.

Lemma child_component_step c x : child_component c x -> exists s, child c s = Some x.
Proof.
  intros [H|(p & Hp & H)].
  - apply In_nth_error in H as [i H]. exists (Nested i). exact H.
  - destruct H as [H|[H|H]]; apply In_nth_error in H as [i H];
      [exists (Ancestor i)|exists (Descendant i)|exists (Variant i)]; unfold child, pedigree_list; rewrite Hp; exact H.
Qed.

Lemma filter_filter {A} (f g : A -> bool) l : (forall x, f x = true -> g x = true) -> filter f (filter g l) = filter f l.
Proof.
  intros H. induction l as [|x l IH]; cbn; trivial. destruct (g x) eqn:G; cbn; rewrite IH; trivial.
  destruct (f x) eqn:F; trivial. rewrite (H _ F) in G; discriminate.
Qed.

Lemma keep_keep {A} (f g : A -> bool) p : (forall x, f x = true -> g x = true) -> keep f (keep g p) = keep f p.
Proof.
  intros H. destruct p as [[l|]|]; cbn; trivial. rewrite <- (filter_filter f g l H).
  destruct (filter g l); reflexivity.
Qed.

Lemma keep_in_place {A B} (f : A -> B) (g : A -> bool) (h : B -> bool) p :
  (forall x, h (f x) = g x) -> keep h (in_place f p) = in_place f (keep g p).
Proof.
  intros H. destruct p as [[l|]|]; cbn; trivial. f_equal.
  rewrite filter_map. rewrite (filter_ext' (fun x => h (f x)) g) by exact H.
  destruct (filter g l); reflexivity.
Qed.

Lemma in_place_ext {A B} (f g : A -> B) p : (forall x, f x = g x) -> in_place f p = in_place g p.
Proof. intros H. apply in_place_ext_in. intros; apply H. Qed.

Lemma if_present_ext {A B} (f g : A -> B) p : (forall x, f x = g x) -> if_present f p = if_present g p.
Proof. intros H. destruct p; cbn; f_equal; auto. Qed.

Lemma in_place_members_nil {A} (f : A -> A) p : members p = [] -> in_place f p = p.
Proof. destruct p as [[l|]|]; cbn; trivial. intros ->; reflexivity. Qed.

Section Step.
Variables lo hi : SpecVersion.
Hypothesis Hle : lo <= hi.

Lemma since_since {A} v (z x : A) : since v z lo (since v z hi x) = since v z lo x.
Proof. unfold since. destruct (Z.leb_spec v lo); trivial. destruct (Z.leb_spec v hi); trivial; lia. Qed.

(** The same with something done to the value in between. *)
Lemma ptr_step {A} v (f : option A -> option A) (g : option A -> option A) (h : option A -> option A) x :
  (v <= lo -> f (g x) = h x) -> ptr_since v lo (f (ptr_since v hi (g x))) = ptr_since v lo (h x).
Proof.
  intros H. destruct (Z.leb_spec v lo) as [L|L].
  - rewrite !ptr_since_new by lia. auto.
  - rewrite !ptr_since_old by lia. trivial.
Qed.

Lemma str_step v x : str_since v lo (str_since v hi x) = str_since v lo x.
Proof. apply since_since. Qed.
Lemma ptr_step0 {A} v (x : option A) : ptr_since v lo (ptr_since v hi x) = ptr_since v lo x.
Proof. apply since_since. Qed.
Lemma ptr_list_step {A} v (f g h : A -> A) x :
  (v <= lo -> forall y, In y (members x) -> f (g y) = h y) ->
  ptr_since v lo (in_place f (ptr_since v hi (in_place g x))) = ptr_since v lo (in_place h x).
Proof.
  intros H. apply (ptr_step v (in_place f) (in_place g) (in_place h)). intros L.
  rewrite in_place_in_place. apply in_place_ext_in. auto.
Qed.
Lemma ptr_present_step {A} v (f g h : A -> A) x :
  (v <= lo -> forall y, x = Some y -> f (g y) = h y) ->
  ptr_since v lo (if_present f (ptr_since v hi (if_present g x))) = ptr_since v lo (if_present h x).
Proof.
  intros H. apply (ptr_step v (if_present f) (if_present g) (if_present h)). intros L.
  destruct x as [y|]; cbn; f_equal; auto.
Qed.
Lemma list_step {A} (f g h : A -> A) x : (forall y, In y (members x) -> f (g y) = h y) -> in_place f (in_place g x) = in_place h x.
Proof. intros H. rewrite in_place_in_place. apply in_place_ext_in; auto. Qed.
Lemma present_step {A} (f g h : A -> A) x : (forall y, f (g y) = h y) -> if_present f (if_present g x) = if_present h x.
Proof. intros H. rewrite if_present_if_present. apply if_present_ext; auto. Qed.

Lemma in_enum_mono e t : in_enum e lo t = true -> in_enum e hi t = true.
Proof.
  induction e as [|[s v] e IH]; cbn [in_enum]; trivial.
  destruct (String.eqb s t); trivial. rewrite !Z.leb_le. lia.
Qed.
Lemma in_open_enum_mono e v t : in_open_enum e v lo t = true -> in_open_enum e v hi t = true.
Proof.
  induction e as [|[s v'] e IH]; cbn [in_open_enum]; [rewrite !Z.leb_le; lia|].
  destruct (String.eqb s t); trivial. rewrite !Z.leb_le. lia.
Qed.
Lemma enum_or_step fb e t : enum_or fb e lo (enum_or fb e hi t) = enum_or fb e lo t.
Proof.
  unfold enum_or. pose proof (in_enum_mono e t). destruct (in_enum e hi t); trivial.
  destruct (in_enum e lo fb); destruct (in_enum e lo t); trivial; discriminate H; trivial.
Qed.
Lemma open_enum_or_step fb e v t : open_enum_or fb e v lo (open_enum_or fb e v hi t) = open_enum_or fb e v lo t.
Proof.
  unfold open_enum_or. pose proof (in_open_enum_mono e v t). destruct (in_open_enum e v hi t); trivial.
  destruct (in_open_enum e v lo fb); destruct (in_open_enum e v lo t); trivial; discriminate H; trivial.
Qed.

Lemma contact_step c : contact_in lo (contact_in hi c) = contact_in lo c.
Proof. unfold contact_in. cbn. rewrite str_step. reflexivity. Qed.

Lemma entity_step c : entity_in lo (entity_in hi c) = entity_in lo c.
Proof.
  unfold entity_in. cbn. rewrite str_step, ptr_step0, (list_step _ _ (contact_in lo)) by (intros; apply contact_step). reflexivity.
Qed.

Lemma data_step d : data_in lo (data_in hi d) = data_in lo d.
Proof. unfold data_in. cbn. rewrite !str_step, !ptr_step0. reflexivity. Qed.

Lemma extref_step r : extref_in lo (extref_in hi r) = extref_in lo r.
Proof.
  unfold extref_in.
  cbn [ExternalReference_URL ExternalReference_Comment ExternalReference_Hashes ExternalReference_Type ExternalReference_Properties].
  rewrite !ptr_step0, open_enum_or_step. reflexivity.
Qed.

Lemma hashes_step p : hashes_in lo (hashes_in hi p) = hashes_in lo p.
Proof. unfold hashes_in. apply keep_keep. intros h. apply in_enum_mono. Qed.

Lemma party_step p : party_in lo (party_in hi p) = party_in lo p.
Proof. unfold party_in. cbn. rewrite (present_step _ _ (entity_in lo)) by apply entity_step. reflexivity. Qed.

Lemma licensing_step l : licensing_in lo (licensing_in hi l) = licensing_in lo l.
Proof. unfold licensing_in. cbn. rewrite !(present_step _ _ (party_in lo)) by apply party_step. reflexivity. Qed.

Lemma license_step l : license_in lo (license_in hi l) = license_in lo l.
Proof.
  unfold license_in. cbn.
  rewrite !str_step, !ptr_step0, (ptr_present_step _ _ _ (licensing_in lo)) by (intros; apply licensing_step). reflexivity.
Qed.

Lemma license_choice_step l : license_choice_in lo (license_choice_in hi l) = license_choice_in lo l.
Proof.
  unfold license_choice_in. cbn. rewrite !str_step, !ptr_step0, (present_step _ _ (license_in lo)) by apply license_step. reflexivity.
Qed.

Lemma licenses_step p : licenses_in lo (licenses_in hi p) = licenses_in lo p.
Proof.
  unfold licenses_in. destruct (Z.ltb_spec lo v1_1) as [L|L]; destruct (Z.ltb_spec hi v1_1) as [K|K]; try lia.
  - rewrite (keep_in_place _ named_license) by apply named_license_in. rewrite keep_keep by trivial.
    apply list_step. intros; apply license_choice_step.
  - rewrite (keep_in_place _ named_license) by apply named_license_in. apply list_step. intros; apply license_choice_step.
  - apply list_step. intros; apply license_choice_step.
Qed.

(** Evidence: at 1.3 and 1.4 the licenses are left alone, so a detour over 1.5 or
    1.6, where they are converted, shows. *)
Definition no_evidence_detour : Prop := hi < v1_5 \/ v1_7 <= hi \/ lo < v1_3 \/ v1_5 <= lo.

Definition evidence_detour_free (e : Evidence) : Prop :=
  no_evidence_detour \/ licenses_in hi (Evidence_Licenses e) = Evidence_Licenses e.

Lemma identity_twice i : identity_in_1_5 (identity_in_1_5 i) = identity_in_1_5 i.
Proof. reflexivity. Qed.

Lemma identity_choice_twice i :
  match identity_choice_in_1_5 i with Some j => identity_choice_in_1_5 j | None => None end = identity_choice_in_1_5 i.
Proof.
  destruct i as [i j]. unfold identity_choice_in_1_5.
  cbn [EvidenceIdentityChoice_Identity EvidenceIdentityChoice_Identities].
  destruct j as [[[|f l]|]|]; cbn; trivial. destruct i; reflexivity.
Qed.

Lemma evidence_step e : v1_3 <= lo -> evidence_detour_free e -> evidence_in lo (evidence_in hi e) = evidence_in lo e.
Proof.
  intros L0 H. apply ext_Evidence; unfold evidence_in;
    cbn [Evidence_Identity Evidence_Occurrences Evidence_Callstack Evidence_Licenses Evidence_Copyright].
  - destruct (Z.leb_spec v1_5 lo) as [L|L]; [|rewrite !ptr_since_old by exact L; reflexivity].
    rewrite !ptr_since_new by lia.
    destruct (Z.ltb_spec lo v1_6), (Z.ltb_spec hi v1_6); try lia; trivial.
    destruct (Evidence_Identity e) as [i|]; trivial. apply identity_choice_twice.
  - destruct (Z.leb_spec v1_5 lo) as [L|L]; [|rewrite !ptr_since_old by exact L; reflexivity].
    rewrite !ptr_since_new by lia.
    destruct (Z.ltb_spec lo v1_6), (Z.ltb_spec hi v1_6); try lia; trivial.
    apply list_step; reflexivity.
  - apply ptr_step0.
  - destruct (Z.ltb_spec lo v1_5) as [L|L]; destruct (Z.ltb_spec hi v1_5) as [K|K]; try lia; trivial.
    + destruct H as [[H|[H|[H|H]]]|H]; try lia; trivial. apply licenses_in_new, H.
    + apply licenses_step.
  - reflexivity.
Qed.

Lemma considerations_step c : considerations_in lo (considerations_in hi c) = considerations_in lo c.
Proof. unfold considerations_in. cbn. rewrite ptr_step0. reflexivity. Qed.

Lemma model_card_step c : model_card_in lo (model_card_in hi c) = model_card_in lo c.
Proof. unfold model_card_in. cbn. rewrite (present_step _ _ (considerations_in lo)) by apply considerations_step. reflexivity. Qed.

Lemma algorithm_step a : algorithm_in lo (algorithm_in hi a) = algorithm_in lo a.
Proof.
  apply ext_CryptoAlgorithmProperties; unfold algorithm_in;
    cbn [CryptoAlgorithmProperties_Primitive CryptoAlgorithmProperties_AlgorithmFamily CryptoAlgorithmProperties_EllipticCurve];
    try reflexivity; [apply open_enum_or_step|apply str_step|apply str_step].
Qed.

Lemma certificate_step a : certificate_in lo (certificate_in hi a) = certificate_in lo a.
Proof. apply ext_CertificateProperties; unfold certificate_in; cbn; try reflexivity; first [apply str_step|apply ptr_step0]. Qed.

Lemma material_step a : material_in lo (material_in hi a) = material_in lo a.
Proof. apply ext_RelatedCryptoMaterialProperties; unfold material_in; cbn; try reflexivity; apply ptr_step0. Qed.

Lemma cipher_suite_step a : cipher_suite_in lo (cipher_suite_in hi a) = cipher_suite_in lo a.
Proof. unfold cipher_suite_in. cbn. rewrite !ptr_step0. reflexivity. Qed.

Lemma protocol_step a : protocol_in lo (protocol_in hi a) = protocol_in lo a.
Proof.
  apply ext_CryptoProtocolProperties; unfold protocol_in;
    cbn [CryptoProtocolProperties_Type CryptoProtocolProperties_CipherSuites CryptoProtocolProperties_RelatedCryptographicAssets];
    try reflexivity; [apply open_enum_or_step|apply list_step; intros; apply cipher_suite_step|apply ptr_step0].
Qed.

Lemma crypto_step a : crypto_in lo (crypto_in hi a) = crypto_in lo a.
Proof.
  apply ext_CryptoProperties; try reflexivity; unfold crypto_in;
    cbn [CryptoProperties_AlgorithmProperties CryptoProperties_CertificateProperties
         CryptoProperties_RelatedCryptoMaterialProperties CryptoProperties_ProtocolProperties];
    apply present_step; [apply algorithm_step|apply certificate_step|apply material_step|apply protocol_step].
Qed.

(** What is required of a component: the licenses of the evidence of the component,
    and of all components inside it, are not affected by the detour. *)
Definition component_detour_free (c : Component) : Prop :=
  forall steps c' e, component_below c steps = Some c' -> Component_Evidence c' = Some e -> evidence_detour_free e.

Lemma component_detour_free_child c x : component_detour_free c -> child_component c x -> component_detour_free x.
Proof.
  intros H Hx steps c' e Hb. apply child_component_step in Hx as [s Hs].
  apply (H (s :: steps)). cbn. rewrite Hs. exact Hb.
Qed.

Lemma component_step c : component_detour_free c -> component_in lo (component_in hi c) = component_in lo c.
Proof.
  induction c as [c IH] using component_induction. intros Hc.
  assert (IH' : forall x, child_component c x -> component_in lo (component_in hi x) = component_in lo x).
  { intros x Hx. apply IH; trivial. eapply component_detour_free_child; eauto. }
  clear IH. rewrite (component_in_fix hi c), (component_in_fix lo (component_in_ _ _ _)), (component_in_fix lo c).
  apply ext_Component; cf; try reflexivity; try apply str_step; try apply ptr_step0.
  - apply enum_or_step.
  - destruct (Z.ltb_spec lo v1_4), (Z.ltb_spec hi v1_4); try lia; cbn [andb]; trivial.
    destruct (String.eqb_spec (Component_Version c) ""); trivial.
    destruct (String.eqb_spec (Component_Version c) ""); trivial. contradiction.
  - apply enum_or_step.
  - apply hashes_step.
  - apply licenses_step.
  - destruct (Component_Modified c); trivial.
    destruct (Z.ltb_spec hi v1_1); trivial. destruct (Z.ltb_spec lo v1_1); trivial; lia.
  - apply ptr_present_step. intros _ p Hp. unfold pedigree_in. cbn. rewrite ptr_step0.
    rewrite !(list_step _ _ (component_in lo)); trivial; intros y Hy; apply IH'; right; exists p; tauto.
  - apply ptr_list_step. intros; apply extref_step.
  - apply list_step. intros y Hy. apply IH'. left; exact Hy.
  - apply ptr_present_step. intros L e He. apply evidence_step; trivial. apply (Hc [] c e); trivial.
  - apply ptr_present_step. intros; apply model_card_step.
  - apply ptr_present_step. intros; apply crypto_step.
Qed.

Lemma service_step s : service_in lo (service_in hi s) = service_in lo s.
Proof.
  induction s as [s IH] using service_induction.
  rewrite (service_in_fix hi s), (service_in_fix lo (service_in_ _ _ _)), (service_in_fix lo s).
  apply ext_Service; unfold service_in_;
    cbn [Service_BOMRef Service_Provider Service_Group Service_Name Service_Version Service_Description Service_Endpoints Service_Authenticated
         Service_CrossesTrustBoundary Service_Data Service_Licenses Service_ExternalReferences Service_Properties Service_Services
         Service_ReleaseNotes Service_Tags Service_TrustZone Service_PatentAssertions Service_Signature];
    try reflexivity; try apply str_step; try apply ptr_step0.
  - apply present_step, entity_step.
  - apply list_step; intros; apply data_step.
  - apply list_step; intros; apply extref_step.
  - apply list_step. exact IH.
Qed.

Lemma tool_step t : tool_in lo (tool_in hi t) = tool_in lo t.
Proof.
  unfold tool_in. cbn [Tool_Vendor Tool_Name Tool_Version Tool_Hashes Tool_ExternalReferences].
  rewrite hashes_step, (ptr_list_step _ _ _ (extref_in lo)) by (intros; apply extref_step). reflexivity.
Qed.

Lemma tool_service_step s : tool_service_in lo (tool_service_in hi s) = tool_service_in lo s.
Proof.
  unfold tool_service_in. destruct s. cbn. rewrite (present_step _ _ (entity_in lo)) by apply entity_step. reflexivity.
Qed.

Lemma service_as_tool_in sv s : service_as_tool (tool_service_in sv s) = service_as_tool s.
Proof. destruct s as [a p]. unfold service_as_tool, tool_service_in. cbn. destruct p; reflexivity. Qed.

Lemma all_tools_new sv t : v1_5 <= sv -> map (tool_in lo) (all_tools (tools_in sv t)) =
  (map (fun x => tool_in lo (tool_in sv x)) (members (ToolsChoice_Tools t)) ++
   map (tool_in lo) (map component_as_tool (members (ToolsChoice_Components t)) ++ map service_as_tool (members (ToolsChoice_Services t))))%list.
Proof.
  intros H. unfold tools_in, all_tools. destruct (Z.ltb_spec sv v1_5); [lia|].
  cbn [ToolsChoice_Tools ToolsChoice_Components ToolsChoice_Services].
  rewrite !members_in_place, map_app, map_map. f_equal. f_equal. f_equal. rewrite map_map.
  apply map_ext. intros; apply service_as_tool_in.
Qed.

Lemma tools_in_old sv t : sv < v1_5 -> tools_in sv t =
  {| ToolsChoice_Tools      := match map (tool_in sv) (all_tools t) with [] => ToolsChoice_Tools t | l => Some (Some l) end;
     ToolsChoice_Components := None;
     ToolsChoice_Services   := None |}.
Proof. intros H. unfold tools_in. destruct (Z.ltb_spec sv v1_5); [|lia]. destruct (all_tools t); reflexivity. Qed.

Lemma tools_step t : tools_in lo (tools_in hi t) = tools_in lo t.
Proof.
  destruct (Z.ltb_spec lo v1_5) as [L|L].
  - rewrite (tools_in_old lo t), (tools_in_old lo (tools_in hi t)) by exact L.
    assert (E : map (tool_in lo) (all_tools (tools_in hi t)) = map (tool_in lo) (all_tools t)).
    { destruct (Z.ltb_spec hi v1_5) as [K|K].
      - unfold all_tools at 1. pose proof (tools_members hi t K) as M. rewrite M.
        unfold tools_in. destruct (Z.ltb_spec hi v1_5); [|lia]. cbn [ToolsChoice_Components ToolsChoice_Services members map].
        rewrite app_nil_r, map_map. apply map_ext, tool_step.
      - rewrite all_tools_new by exact K. unfold all_tools. rewrite !(map_app (tool_in lo)). f_equal. apply map_ext, tool_step. }
    rewrite E. destruct (map (tool_in lo) (all_tools t)) eqn:M; [|reflexivity]. f_equal.
    apply map_eq_nil in M. assert (N : members (ToolsChoice_Tools t) = []) by (apply app_eq_nil in M; tauto).
    unfold tools_in. rewrite M. destruct (hi <? v1_5); cbn [ToolsChoice_Tools]; trivial. apply in_place_members_nil, N.
  - unfold tools_in. destruct (Z.ltb_spec lo v1_5); [lia|]. destruct (Z.ltb_spec hi v1_5); [lia|].
    cbn [ToolsChoice_Tools ToolsChoice_Components ToolsChoice_Services].
    rewrite (list_step _ _ (tool_in lo)) by (intros; apply tool_step).
    rewrite (list_step _ _ (tool_service_in lo)) by (intros; apply tool_service_step). reflexivity.
Qed.

Lemma rating_step r : rating_in lo (rating_in hi r) = rating_in lo r.
Proof.
  apply ext_VulnerabilityRating; try reflexivity. unfold rating_in. cbn [VulnerabilityRating_Method]. apply enum_or_step.
Qed.

Lemma credits_step c : credits_in lo (credits_in hi c) = credits_in lo c.
Proof.
  unfold credits_in. cbn. rewrite (list_step _ _ (entity_in lo)), (list_step _ _ (contact_in lo)); trivial;
    intros; [apply contact_step|apply entity_step].
Qed.

Lemma analysis_step a : analysis_in lo (analysis_in hi a) = analysis_in lo a.
Proof. unfold analysis_in. cbn. rewrite !str_step. reflexivity. Qed.

Lemma vulnerability_step v : vulnerability_in lo (vulnerability_in hi v) = vulnerability_in lo v.
Proof.
  apply ext_Vulnerability; try reflexivity; unfold vulnerability_in;
    cbn [Vulnerability_Ratings Vulnerability_Workaround Vulnerability_ProofOfConcept Vulnerability_Rejected Vulnerability_Credits
         Vulnerability_Tools Vulnerability_Analysis]; try apply str_step; try apply ptr_step0.
  - apply list_step; intros; apply rating_step.
  - apply present_step, credits_step.
  - apply present_step, tools_step.
  - apply present_step, analysis_step.
Qed.

Lemma composition_step c : composition_in lo (composition_in hi c) = composition_in lo c.
Proof.
  apply ext_Composition; try reflexivity; unfold composition_in;
    cbn [Composition_BOMRef Composition_Aggregate Composition_Vulnerabilities];
    [apply str_step|apply open_enum_or_step|apply ptr_step0].
Qed.

Lemma annotator_step a : annotator_in lo (annotator_in hi a) = annotator_in lo a.
Proof.
  unfold annotator_in. destruct (Z.ltb_spec lo v1_6), (Z.ltb_spec hi v1_6); try lia; trivial.
  cbn [Annotator_Organization Annotator_Individual Annotator_Component Annotator_Service].
  rewrite (present_step _ _ (entity_in lo)) by apply entity_step.
  rewrite (present_step _ _ (service_in lo)) by apply service_step. reflexivity.
Qed.

Lemma annotation_step a : annotation_in lo (annotation_in hi a) = annotation_in lo a.
Proof. unfold annotation_in. cbn. rewrite (present_step _ _ (annotator_in lo)) by apply annotator_step. reflexivity. Qed.

Lemma metadata_step m : (forall c, Metadata_Component m = Some c -> component_detour_free c) ->
  metadata_in lo (metadata_in hi m) = metadata_in lo m.
Proof.
  intros H. apply ext_Metadata; mf; try reflexivity; try apply str_step; try apply ptr_step0.
  - apply present_step, tools_step.
  - apply list_step; intros; apply contact_step.
  - destruct (Metadata_Component m) as [c|]; cbn; trivial. f_equal. apply component_step; auto.
  - apply present_step, entity_step.
  - apply present_step, entity_step.
  - apply (ptr_step v1_3 (licenses_in lo) (licenses_in hi) (licenses_in lo)). intros; apply licenses_step.
Qed.

Lemma dependency_step d : dependency_in lo (dependency_in hi d) = dependency_in lo d.
Proof. unfold dependency_in. cbn. rewrite ptr_step0. reflexivity. Qed.

Lemma definitions_step d : definitions_in lo (definitions_in hi d) = definitions_in lo d.
Proof. unfold definitions_in. cbn. rewrite ptr_step0. reflexivity. Qed.

Definition bom_detour_free (b : BOM) : Prop :=
  forall r steps c e, component_at b r steps = Some c -> Component_Evidence c = Some e -> evidence_detour_free e.

Lemma bom_step b : bom_detour_free b -> bom_in lo (bom_in hi b) = bom_in lo b.
Proof.
  intros H. apply ext_BOM; bf; try reflexivity; try apply str_step; try apply ptr_step0.
  - apply ptr_present_step. intros _ m Hm. apply metadata_step. intros c Hc steps c' e Hb.
    apply (H Described steps). unfold component_at, root_component. rewrite Hm, Hc. exact Hb.
  - apply list_step. intros c Hc. apply component_step. intros steps c' e Hb.
    apply In_nth_error in Hc as [i Hi]. apply (H (Listed i) steps). unfold component_at, root_component. rewrite Hi. exact Hb.
  - apply ptr_list_step. intros; apply service_step.
  - apply ptr_list_step. intros; apply extref_step.
  - apply ptr_list_step. intros; apply dependency_step.
  - apply ptr_list_step. intros; apply composition_step.
  - apply ptr_list_step. intros; apply vulnerability_step.
  - apply ptr_list_step. intros; apply annotation_step.
  - apply ptr_present_step. intros; apply definitions_step.
Qed.

End Step.

Lemma convert_twice sv b : convert sv (convert sv b) = convert sv b.
Proof.
  rewrite !convert_spec. apply bom_step; [lia|]. intros r steps c e _ _. left.
  unfold no_evidence_detour. unfold v1_3, v1_5, v1_7. lia.
Qed.

Lemma convert_stepwise lo hi b : lo <= hi -> (hi < v1_5 \/ v1_7 <= hi \/ lo < v1_3 \/ v1_5 <= lo) ->
  convert lo (convert hi b) = convert lo b.
Proof. intros L H. rewrite !convert_spec. apply bom_step; trivial. intros r steps c e _ _. left. exact H. Qed.

Lemma convert_stepwise_evidence lo hi b : lo <= hi ->
  (forall r steps c e, component_at b r steps = Some c -> Component_Evidence c = Some e ->
     licenses_in hi (Evidence_Licenses e) = Evidence_Licenses e) ->
  convert lo (convert hi b) = convert lo b.
Proof. intros L H. rewrite !convert_spec. apply bom_step; trivial. intros r steps c e Hc He. right. eapply H; eauto. Qed.
