(** Where the XML encoder writes things. *)
From Verif Require Import Base Types Univ TypeTable Wt Reify Version ConvertModel ConvertSpec ConvertReach JsonModel JsonChoices XmlModel XmlOffence XmlErrors.
Local Open Scope string_scope.

Lemma xwritten_trans t v t1 v1 t2 v2 : xwritten t v t1 v1 -> xwritten t1 v1 t2 v2 -> xwritten t v t2 v2.
Proof. induction 1 as [|t v t1 v1 t2' v2' P _ IH]; intros W; [exact W|]. eapply xwritten_part; [exact P|]. apply IH, W. Qed.
Lemma field_in fs : forall vs i f v ps n om, nth_error fs i = Some f -> nth_error vs i = Some v -> xml_info f = Some (mkX XElement ps n om) -> In (f_ty f, v) (field_parts fs vs).
Proof.
  induction fs as [|g fs IH]; intros [|x vs] i f v ps n om Nf Nv J; try (destruct i; discriminate). cbn [field_parts]. destruct i as [|i].
  - injection Nf as ->. injection Nv as ->. rewrite J. left. reflexivity.
  - pose proof (IH vs i f v ps n om Nf Nv J) as I. destruct (xml_info g) as [[[]]|]; try exact I. right. exact I.
Qed.
Lemma xwritten_at t w i f v ps n om t' : marshaler t = MNone -> nth_error (fields_of t) i = Some f -> f_ty f = t' -> xml_info f = Some (mkX XElement ps n om) ->
  nth_error (fields_of_val w) i = Some v -> xwritten t w t' v.
Proof.
  intros M Nf <- J Nv. destruct w as [| | | | | |vs]; try (destruct i; discriminate Nv). eapply xwritten_part; [|apply xwritten_here]. cbn [xparts]. rewrite M. cbn [method_parts].
  eapply field_in; eassumption.
Qed.
Lemma xwritten_ptr {A} (r : A -> val) t p x : p = Some x -> xwritten (TPtr t) (vptr r p) t (r x).
Proof. intros ->. eapply xwritten_part; [left; reflexivity|apply xwritten_here]. Qed.
Lemma xwritten_list {A} (r : A -> val) t p x : In x (members p) -> xwritten (TPtr (TSlice t)) (vptr (vslice r) p) t (r x).
Proof.
  destruct p as [[l|]|]; try contradiction. cbn [members]. intros I. eapply xwritten_part; [left; reflexivity|]. eapply xwritten_part; [|apply xwritten_here].
  cbn. apply in_map_iff. exists (r x). split; [reflexivity|]. apply in_map, I.
Qed.

Ltac xfield_at n := eapply (fun t w f v ps m om t' => xwritten_at t w n f v ps m om t'); [reflexivity|reflexivity|reflexivity|vm_compute; reflexivity|].
Ltac xptr n r E := eapply xwritten_trans; [xfield_at n; destruct r; reflexivity|apply xwritten_ptr, E].
Ltac xlist n r E := eapply xwritten_trans; [xfield_at n; destruct r; reflexivity|apply xwritten_list, E].

Lemma xw_metadata b m : BOM_Metadata b = Some m -> xwritten (TRef "BOM") (reify_BOM b) (TRef "Metadata") (reify_Metadata m).
Proof. intros E. xptr 7%nat b E. Qed.
Lemma xw_tools m x : Metadata_Tools m = Some x -> xwritten (TRef "Metadata") (reify_Metadata m) (TRef "ToolsChoice") (reify_ToolsChoice x).
Proof. intros E. xptr 2%nat m E. Qed.
Lemma xw_described m x : Metadata_Component m = Some x -> xwritten (TRef "Metadata") (reify_Metadata m) (TRef "Component") (reify_Component x).
Proof. intros E. xptr 4%nat m E. Qed.
Lemma xw_listed b x : In x (members (BOM_Components b)) -> xwritten (TRef "BOM") (reify_BOM b) (TRef "Component") (reify_Component x).
Proof. intros E. xlist 8%nat b E. Qed.
Lemma xw_nested c x : In x (members (Component_Components c)) -> xwritten (TRef "Component") (reify_Component c) (TRef "Component") (reify_Component x).
Proof. intros E. xlist 25%nat c E. Qed.
Lemma xw_pedigree c p : Component_Pedigree c = Some p -> xwritten (TRef "Component") (reify_Component c) (TRef "Pedigree") (reify_Pedigree_ reify_Component p).
Proof. intros E. xptr 22%nat c E. Qed.
Lemma xw_ancestor p x : In x (members (Pedigree_Ancestors p)) -> xwritten (TRef "Pedigree") (reify_Pedigree_ reify_Component p) (TRef "Component") (reify_Component x).
Proof. intros E. xlist 0%nat p E. Qed.
Lemma xw_descendant p x : In x (members (Pedigree_Descendants p)) -> xwritten (TRef "Pedigree") (reify_Pedigree_ reify_Component p) (TRef "Component") (reify_Component x).
Proof. intros E. xlist 1%nat p E. Qed.
Lemma xw_variant p x : In x (members (Pedigree_Variants p)) -> xwritten (TRef "Pedigree") (reify_Pedigree_ reify_Component p) (TRef "Component") (reify_Component x).
Proof. intros E. xlist 2%nat p E. Qed.
Lemma xw_child c s x : child c s = Some x -> xwritten (TRef "Component") (reify_Component c) (TRef "Component") (reify_Component x).
Proof.
  destruct s; cbn [child]; unfold pedigree_list; [intros E; apply nth_in in E; apply xw_nested, E| | |];
    (destruct (Component_Pedigree c) as [p|] eqn:P; [|destruct i; discriminate]); intros E; apply nth_in in E;
    (eapply xwritten_trans; [eapply xw_pedigree, P|]).
  - apply xw_ancestor, E.
  - apply xw_descendant, E.
  - apply xw_variant, E.
Qed.
Lemma xw_below steps : forall c x, component_below c steps = Some x -> xwritten (TRef "Component") (reify_Component c) (TRef "Component") (reify_Component x).
Proof.
  induction steps as [|s steps IH]; cbn [component_below]; intros c x E; [injection E as ->; apply xwritten_here|].
  destruct (child c s) as [c'|] eqn:C; [|discriminate]. eapply xwritten_trans; [eapply xw_child, C|apply IH, E].
Qed.
Lemma component_xwritten b r steps x : component_at b r steps = Some x -> xwritten (TRef "BOM") (reify_BOM b) (TRef "Component") (reify_Component x).
Proof.
  unfold component_at. destruct (root_component b r) as [c|] eqn:R; [|discriminate]. intros E. eapply xwritten_trans; [|eapply xw_below, E].
  destruct r as [i|]; cbn [root_component] in R.
  - apply xw_listed. eapply nth_in, R.
  - destruct (BOM_Metadata b) as [m|] eqn:M; [|discriminate]. eapply xwritten_trans; [eapply xw_metadata, M|apply xw_described, R].
Qed.
Lemma xw_crypto c x : Component_CryptoProperties c = Some x -> xwritten (TRef "Component") (reify_Component c) (TRef "CryptoProperties") (reify_CryptoProperties x).
Proof. intros E. xptr 30%nat c E. Qed.
Lemma xw_certificate c x : CryptoProperties_CertificateProperties c = Some x -> xwritten (TRef "CryptoProperties") (reify_CryptoProperties c) (TRef "CertificateProperties") (reify_CertificateProperties x).
Proof. intros E. xptr 2%nat c E. Qed.
Lemma xw_state c x : In x (members (CertificateProperties_CertificateState c)) ->
  xwritten (TRef "CertificateProperties") (reify_CertificateProperties c) (TRef "CertificateState") (reify_CertificateState x).
Proof. intros E. xlist 11%nat c E. Qed.
Lemma xw_extension c x : In x (members (CertificateProperties_CertificateExtensions c)) ->
  xwritten (TRef "CertificateProperties") (reify_CertificateProperties c) (TRef "CertificateExtension") (reify_CertificateExtension x).
Proof. intros E. xlist 12%nat c E. Qed.
Lemma xw_assertion c x : In x (members (Component_PatentAssertions c)) -> xwritten (TRef "Component") (reify_Component c) (TRef "PatentAssertion") (reify_PatentAssertion x).
Proof. intros E. xlist 33%nat c E. Qed.
Lemma xw_asserter c x : PatentAssertion_Asserter c = Some x -> xwritten (TRef "PatentAssertion") (reify_PatentAssertion c) (TRef "AsserterChoice") (reify_AsserterChoice x).
Proof. intros E. xptr 3%nat c E. Qed.
Lemma xw_licenses c p : Component_Licenses c = Some p -> xwritten (TRef "Component") (reify_Component c) (TRef "Licenses") (vslice reify_LicenseChoice p).
Proof. intros E. eapply xwritten_trans; [xfield_at 14%nat; destruct c; reflexivity|]. rewrite E. eapply xwritten_part; [left; reflexivity|apply xwritten_here]. Qed.
Lemma xw_license l c x : In c l -> LicenseChoice_License c = Some x -> xwritten (TRef "Licenses") (vslice reify_LicenseChoice (Some l)) (TRef "License") (reify_License x).
Proof.
  intros I E. eapply xwritten_part; [|apply xwritten_here]. cbn. apply in_flat_map. exists (reify_LicenseChoice c). split; [apply in_map, I|].
  destruct c as [k]. cbn in E. subst k. left. reflexivity.
Qed.
Lemma xw_evidence c e : Component_Evidence c = Some e -> xwritten (TRef "Component") (reify_Component c) (TRef "Evidence") (reify_Evidence e).
Proof. intros E. xptr 26%nat c E. Qed.
Lemma xw_evidence_licenses e p : Evidence_Licenses e = Some p -> xwritten (TRef "Evidence") (reify_Evidence e) (TRef "Licenses") (vslice reify_LicenseChoice p).
Proof.
  intros E. eapply (xwritten_part _ _ (TPtr (TRef "Licenses")) (vptr (vslice reify_LicenseChoice) (Evidence_Licenses e))).
  - destruct e. cbn. apply in_or_app. right. right. right. left. reflexivity.
  - rewrite E. eapply xwritten_part; [left; reflexivity|apply xwritten_here].
Qed.
