(** The round trip of whole documents. *)
From Verif Require Import Base Types Univ TypeTable Wt ReifyBase Reify ReifyFacts Consts LinkModel Version Numbers NumbersProofs JsonModel JsonProofs JsonHooks XmlModel XmlBack XmlTable XmlSpec XmlValues XmlProofs XmlPairs XmlStructs XmlSelf XmlHooks XmlLists XmlEvidence.
From Coq Require Import Lia.
Local Open Scope string_scope.
Section Limits.
Context {Lim : Limit}.

(** ** Every value *)
Lemma assoc_methods n m : assoc n xml_methods = Some m -> In (n, m) xml_methods.
Proof.
  generalize xml_methods. induction l as [|(k & x) l IH]; [discriminate|]. cbn [assoc]. destruct (String.eqb_spec k n); [intros [= ->]; subst; left; reflexivity|].
  intros H. right. apply IH, H.
Qed.
Lemma by_hook t m fs v : marshaler t = m -> m <> MNone -> m <> MLicense -> kind_of t = KStruct fs -> zero_of t = VStruct (XmlModel.zeros fs) ->
  (forall vs, below one_ok (VStruct vs) -> hook_at t m fs vs) -> below one_ok v -> one_at t v.
Proof.
  intros M N1 N2 K Z H B omit name els W. destruct (wt_struct t fs v K W) as (vs & -> & _). revert W. apply (hook_struct t m fs vs); auto.
Qed.
Lemma hooked n m v : In (n, m) xml_methods -> below one_ok v -> one_at (TRef n) v.
Proof.
  intros I B. unfold xml_methods in I. cbn [In] in I.
  repeat (destruct I as [I|I]; [injection I as <- <-|]); [..|destruct I].
  - apply one_ref.
  - apply (by_hook (TRef "Copyright") MCopyright fields_Copyright); try reflexivity; try discriminate; try exact B. intros vs _. apply hook_copyright.
  - apply (by_hook (TRef "Dependency") MDependency fields_Dependency); try reflexivity; try discriminate; try exact B. intros vs _. apply hook_dependency.
  - apply one_environment, B.
  - apply one_license, B.
  - apply one_licenses, B.
  - apply (by_hook (TRef "MLDatasetChoice") MDataset fields_MLDatasetChoice); try reflexivity; try discriminate; try exact B. apply hook_dataset.
  - apply one_version.
  - apply (by_hook (TRef "CertificateState") MState fields_CertificateState); try reflexivity; try discriminate; try exact B. intros; apply hook_state.
  - apply (by_hook (TRef "CertificateExtension") MExtension fields_CertificateExtension); try reflexivity; try discriminate; try exact B. intros; apply hook_extension.
  - apply (by_hook (TRef "AsserterChoice") MAsserter fields_AsserterChoice); try reflexivity; try discriminate; try exact B. apply hook_asserter.
  - apply (by_hook (TRef "IKEv2Auth") MIKEv2 fields_IKEv2Auth); try reflexivity; try discriminate; try exact B. intros vs Bl. apply hook_ikev2; [cbn; tauto|exact Bl].
  - apply (by_hook (TRef "IKEv2Enc") MIKEv2 fields_IKEv2Enc); try reflexivity; try discriminate; try exact B. intros vs Bl. apply hook_ikev2; [cbn; tauto|exact Bl].
  - apply (by_hook (TRef "IKEv2Integ") MIKEv2 fields_IKEv2Integ); try reflexivity; try discriminate; try exact B. intros vs Bl. apply hook_ikev2; [cbn; tauto|exact Bl].
  - apply (by_hook (TRef "IKEv2Ke") MIKEv2 fields_IKEv2Ke); try reflexivity; try discriminate; try exact B. intros vs Bl. apply hook_ikev2; [cbn; tauto|exact Bl].
  - apply (by_hook (TRef "IKEv2Prf") MIKEv2 fields_IKEv2Prf); try reflexivity; try discriminate; try exact B. intros vs Bl. apply hook_ikev2; [cbn; tauto|exact Bl].
  - apply (by_hook (TRef "ToolsChoice") MTools fields_ToolsChoice); try reflexivity; try discriminate; try exact B. apply hook_tools.
  - apply (by_hook (TRef "Evidence") MEvidence fields_Evidence); try reflexivity; try discriminate; try exact B. apply hook_evidence.
  - apply (by_hook (TRef "DataClassification") MData fields_DataClassification); try reflexivity; try discriminate; try exact B. apply hook_data.
  - apply (by_hook (TRef "Definitions") MDefinitions fields_Definitions); try reflexivity; try discriminate; try exact B. apply hook_definitions.
Qed.
Lemma base_plain v t : below one_ok v -> base_ty t = true -> marshaler t = MNone -> one_at t v.
Proof.
  intros B Bt M.
  assert (Dt : is_data t = false).
  { unfold is_data. destruct t; try reflexivity; try (cbn in Bt; discriminate). cbn [core]. destruct (String.eqb_spec name "DataClassification"); [subst; discriminate M|reflexivity]. }
  assert (Bm : is_bom t = false) by (unfold base_ty in Bt; destruct (is_bom t); [discriminate|reflexivity]).
  intros omit name els W S E. pose proof W as W0. pose proof (base_kind t Bt) as Kb.
  destruct (kind_of t) as [| | | |t'|t'|fs|] eqn:K; try contradiction.
  1-4: refine (one_simple t v _ Dt M _ omit name els W S E); [unfold is_simple; rewrite K; reflexivity|destruct v as [| | | |[]|[]|]; cbn [wt] in W0; rewrite K in W0; try contradiction; reflexivity].
  - exfalso. apply (base_slice t t' Bt K). unfold unmarshaler. rewrite M. reflexivity.
  - destruct (wt_struct t fs v K W) as (vs & -> & Wz). cbn [xsane] in S. unfold fields_of in S. rewrite K in S.
    assert (S' : xsane t (VStruct vs)) by (cbn [xsane]; unfold fields_of; rewrite K; exact S).
    refine (plain_one t fs vs K Bm Dt M _ omit name els W S' E).
    destruct (struct_table t fs K Bm) as (_ & _ & _ & F). specialize (F Dt). unfold xml_facts in F. apply andb_prop in F as (F & _).
    apply (values_struct t); auto. eapply pair_field, F.
Qed.
Lemma base_one v : below one_ok v -> one_ok v.
Proof.
  intros B t Bt. destruct t as [| | | | | | |n]; try (apply base_plain; auto; reflexivity).
  destruct (assoc n xml_methods) as [m|] eqn:A.
  - apply (hooked n m); [apply assoc_methods, A|exact B].
  - apply base_plain; auto. unfold marshaler. rewrite A. reflexivity.
Qed.
Theorem all_one v : everywhere one_ok v.
Proof. exact (val_strong _ base_one v). Qed.

(** ** BOMs *)
Definition bom_sane (b : BOM) : Prop := xsane (TRef "BOM") (reify_BOM (set_BOM_SpecVersion 1%Z b)).
Lemma fields_BOM_facts : xml_facts fields_BOM = true.
Proof. vm_compute. reflexivity. Qed.
Lemma version_unseen b v : bom_to_xml (set_BOM_SpecVersion v b) = bom_to_xml b.
Proof. reflexivity. Qed.
Lemma back_unseen b v : bback (back_of (reify_BOM (set_BOM_SpecVersion v b))) (TRef "BOM") false = bback (back_of (reify_BOM b)) (TRef "BOM") false.
Proof. reflexivity. Qed.
End Limits.
