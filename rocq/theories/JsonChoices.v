(** The choices of a decoded BOM have at most one alternative. *)
From Verif Require Import Base Types Univ TypeTable Wt Reify Version Numbers Utf8 ConvertModel GobModel JsonModel JsonBack JsonSpec JsonRound JsonBom ConvertSpec ConvertReach.
From Coq Require Import Lia.
Local Open Scope string_scope.

Lemma decoded_choices j c : doc_utf8 j -> doc_unique j -> bom_of_json j zero_BOM = Ok c ->
  (forall x, inside (TRef "BOM") (reify_BOM c) (TRef "ToolsChoice") (reify_ToolsChoice x) ->
     ToolsChoice_Tools x = None \/ (ToolsChoice_Components x = None /\ ToolsChoice_Services x = None)) /\
  (forall x, inside (TRef "BOM") (reify_BOM c) (TRef "EvidenceIdentityChoice") (reify_EvidenceIdentityChoice x) ->
     EvidenceIdentityChoice_Identity x = None \/ EvidenceIdentityChoice_Identities x = None) /\
  (forall x, inside (TRef "BOM") (reify_BOM c) (TRef "CertificateState") (reify_CertificateState x) ->
     CertificateState_Predefined x = None \/ CertificateState_Custom x = None) /\
  (forall x, inside (TRef "BOM") (reify_BOM c) (TRef "CertificateExtension") (reify_CertificateExtension x) ->
     CertificateExtension_Common x = None \/ CertificateExtension_Custom x = None) /\
  (forall x, inside (TRef "BOM") (reify_BOM c) (TRef "MLDatasetChoice") (reify_MLDatasetChoice x) ->
     MLDatasetChoice_Ref x = "" \/ MLDatasetChoice_ComponentData x = None) /\
  (forall x, inside (TRef "BOM") (reify_BOM c) (TRef "PatentChoice") (reify_PatentChoice x) ->
     PatentChoice_Patent x = None \/ PatentChoice_PatentFamily x = None) /\
  (forall x, inside (TRef "BOM") (reify_BOM c) (TRef "EnvironmentVariableChoice") (reify_EnvironmentVariableChoice x) ->
     EnvironmentVariableChoice_Property x = None \/ EnvironmentVariableChoice_Value x = "") /\
  (forall x, inside (TRef "BOM") (reify_BOM c) (TRef "AsserterChoice") (reify_AsserterChoice x) ->
     (AsserterChoice_Organization x = None \/ AsserterChoice_Individual x = None) /\
     (AsserterChoice_Organization x = None \/ AsserterChoice_BOMRef x = None) /\
     (AsserterChoice_Individual x = None \/ AsserterChoice_BOMRef x = None)).
Proof.
  intros U Q E. split; [|split; [|split; [|split; [|split; [|split; [|split]]]]]]; intros x I; pose proof (decoded_inside j c _ _ U Q E I) as L; clear I; destruct x as [a b].
  - apply (intact_fields _ _ _ _ ht_tools) in L as [[(_ & _ & B & C)|(A & _)]|Z].
    + right. split; eapply nil_none; eassumption.
    + left. eapply nil_none; eassumption.
    + left. cbn [ToolsChoice_Tools]. injection Z as Z _ _. destruct a; [discriminate Z|reflexivity].
  - apply (intact_fields _ _ _ _ ht_identity) in L as [[(_ & _ & B)|(A & _)]|Z].
    + right. eapply nil_none; eassumption.
    + left. eapply nil_none; eassumption.
    + left. injection Z as Z _. destruct a; [discriminate Z|reflexivity].
  - apply (intact_fields _ _ _ _ ht_state) in L as [[(_ & _ & B)|(A & _)]|Z].
    + right. eapply nil_none; eassumption.
    + left. eapply nil_none; eassumption.
    + left. injection Z as Z _. destruct a; [discriminate Z|reflexivity].
  - apply (intact_fields _ _ _ _ ht_extension) in L as [[(_ & _ & B)|(A & _)]|Z].
    + right. eapply nil_none; eassumption.
    + left. eapply nil_none; eassumption.
    + left. injection Z as Z _. destruct a; [discriminate Z|reflexivity].
  - apply (intact_fields _ _ _ _ ht_dataset) in L as [[(_ & _ & B)|(A & _)]|Z].
    + right. eapply nil_none; eassumption.
    + left. injection A as ->. reflexivity.
    + left. injection Z as Z _. exact Z.
  - apply (intact_fields _ _ _ _ ht_patent) in L as [[(_ & _ & B)|(A & _)]|Z].
    + right. eapply nil_none; eassumption.
    + left. eapply nil_none; eassumption.
    + left. injection Z as Z _. destruct a; [discriminate Z|reflexivity].
  - apply (intact_fields _ _ _ _ ht_env) in L as [[(A & _)|(_ & _ & B)]|Z].
    + left. eapply nil_none; eassumption.
    + right. injection B as ->. reflexivity.
    + left. injection Z as Z _. destruct a; [discriminate Z|reflexivity].
  - apply (intact_fields _ _ _ _ ht_asserter) in L as [[(_ & B & C)|[(A & _ & C)|(A & B & _)]]|Z].
    all: try apply nil_none in A. all: try apply nil_none in B. all: try apply nil_none in C.
    all: auto. injection Z as Z1 Z2 Z3. destruct a; [discriminate Z1|]. split; [left; reflexivity|]. split; [left; reflexivity|].
    destruct b; [discriminate Z2|left; reflexivity].
Qed.

(** ** Where things are written *)
Lemma written_trans t v t1 v1 t2 v2 : written t v t1 v1 -> written t1 v1 t2 v2 -> written t v t2 v2.
Proof. induction 1 as [|t v t1 v1 t2' v2' P _ IH]; intros W; [exact W|]. eapply written_part; [exact P|]. apply IH, W. Qed.
Lemma plain_in fs : forall vs i f v n om, nth_error fs i = Some f -> nth_error vs i = Some v -> json_info f = Some (n, om) -> empty_value v = false ->
  In (f_ty f, v) (plain_parts fs vs).
Proof.
  induction fs as [|g fs IH]; intros [|x vs] i f v n om Nf Nv J Ne; try (destruct i; discriminate). cbn [plain_parts]. destruct i as [|i].
  - injection Nf as ->. injection Nv as ->. rewrite J, Ne, Bool.andb_false_r. left. reflexivity.
  - pose proof (IH vs i f v n om Nf Nv J Ne) as I. destruct (json_info g) as [[m o]|]; [|exact I]. destruct (o && empty_value x)%bool; [exact I|right; exact I].
Qed.
Lemma written_field t vs i f v n om t' : marshal_hook t = HNone -> nth_error (fields_of t) i = Some f -> f_ty f = t' -> json_info f = Some (n, om) ->
  nth_error vs i = Some v -> empty_value v = false -> written t (VStruct vs) t' v.
Proof.
  intros M Nf <- J Nv Ne. eapply written_part; [|apply written_here]. cbn [parts_of]. rewrite M. cbn [choice_parts].
  destruct vs; [destruct i; discriminate|]. eapply plain_in; eassumption.
Qed.
Lemma written_ptr {A} (r : A -> val) t p x : p = Some x -> written (TPtr t) (vptr r p) t (r x).
Proof. intros ->. eapply written_part; [left; reflexivity|apply written_here]. Qed.
Lemma written_named {A} (r : A -> val) s t p x : elem_ty s = t -> In x (members p) -> written (TPtr s) (vptr (vslice r) p) t (r x).
Proof.
  intros <-.
  destruct p as [[l|]|]; try contradiction. cbn [members]. intros I. eapply written_part; [left; reflexivity|]. eapply written_part; [|apply written_here].
  cbn [vslice option_map parts_of]. apply in_map_iff. exists (r x). split; [reflexivity|]. apply in_map, I.
Qed.
Lemma written_list {A} (r : A -> val) t p x : In x (members p) -> written (TPtr (TSlice t)) (vptr (vslice r) p) t (r x).
Proof. apply written_named. reflexivity. Qed.
Lemma ptr_full {A} (r : A -> val) p x : p = Some x -> empty_value (vptr r p) = false.
Proof. intros ->. reflexivity. Qed.
Lemma list_full {A} (r : A -> val) (p : ptr (slice A)) x : In x (members p) -> empty_value (vptr (vslice r) p) = false.
Proof. destruct p; [reflexivity|contradiction]. Qed.

Lemma written_at t w i f v n om t' : marshal_hook t = HNone -> nth_error (fields_of t) i = Some f -> f_ty f = t' -> json_info f = Some (n, om) ->
  nth_error (fields_of_val w) i = Some v -> empty_value v = false -> written t w t' v.
Proof. intros M Nf T J Nv Ne. destruct w; try (destruct i; discriminate Nv). eapply written_field; eassumption. Qed.
Lemma nth_in {A} (l : list A) i x : nth_error l i = Some x -> In x l.
Proof. intros E. eapply nth_error_In, E. Qed.

Ltac at_field n := eapply (fun t w f v m om t' => written_at t w n f v m om t'); [reflexivity|reflexivity|reflexivity|reflexivity| |].

Lemma w_metadata b m : BOM_Metadata b = Some m -> written (TRef "BOM") (reify_BOM b) (TRef "Metadata") (reify_Metadata m).
Proof. intros E. eapply written_trans; [at_field 7%nat; [destruct b; reflexivity|eapply ptr_full, E]|apply written_ptr, E]. Qed.
Lemma w_tools m x : Metadata_Tools m = Some x -> written (TRef "Metadata") (reify_Metadata m) (TRef "ToolsChoice") (reify_ToolsChoice x).
Proof. intros E. eapply written_trans; [at_field 2%nat; [destruct m; reflexivity|eapply ptr_full, E]|apply written_ptr, E]. Qed.
Lemma w_described m x : Metadata_Component m = Some x -> written (TRef "Metadata") (reify_Metadata m) (TRef "Component") (reify_Component x).
Proof. intros E. eapply written_trans; [at_field 4%nat; [destruct m; reflexivity|eapply ptr_full, E]|apply written_ptr, E]. Qed.
Lemma w_listed b x : In x (members (BOM_Components b)) -> written (TRef "BOM") (reify_BOM b) (TRef "Component") (reify_Component x).
Proof. intros E. eapply written_trans; [at_field 8%nat; [destruct b; reflexivity|eapply list_full, E]|apply written_list, E]. Qed.
Lemma w_nested c x : In x (members (Component_Components c)) -> written (TRef "Component") (reify_Component c) (TRef "Component") (reify_Component x).
Proof. intros E. eapply written_trans; [at_field 25%nat; [destruct c; reflexivity|eapply list_full, E]|apply written_list, E]. Qed.
Lemma w_pedigree c p : Component_Pedigree c = Some p -> written (TRef "Component") (reify_Component c) (TRef "Pedigree") (reify_Pedigree_ reify_Component p).
Proof. intros E. eapply written_trans; [at_field 22%nat; [destruct c; reflexivity|eapply ptr_full, E]|apply written_ptr, E]. Qed.
Lemma w_ancestor p x : In x (members (Pedigree_Ancestors p)) -> written (TRef "Pedigree") (reify_Pedigree_ reify_Component p) (TRef "Component") (reify_Component x).
Proof. intros E. eapply written_trans; [at_field 0%nat; [destruct p; reflexivity|eapply list_full, E]|apply written_list, E]. Qed.
Lemma w_descendant p x : In x (members (Pedigree_Descendants p)) -> written (TRef "Pedigree") (reify_Pedigree_ reify_Component p) (TRef "Component") (reify_Component x).
Proof. intros E. eapply written_trans; [at_field 1%nat; [destruct p; reflexivity|eapply list_full, E]|apply written_list, E]. Qed.
Lemma w_variant p x : In x (members (Pedigree_Variants p)) -> written (TRef "Pedigree") (reify_Pedigree_ reify_Component p) (TRef "Component") (reify_Component x).
Proof. intros E. eapply written_trans; [at_field 2%nat; [destruct p; reflexivity|eapply list_full, E]|apply written_list, E]. Qed.

Lemma w_child c s x : child c s = Some x -> written (TRef "Component") (reify_Component c) (TRef "Component") (reify_Component x).
Proof.
  destruct s; cbn [child]; unfold pedigree_list; [intros E; apply nth_in in E; apply w_nested, E| | |];
    (destruct (Component_Pedigree c) as [p|] eqn:P; [|destruct i; discriminate]); intros E; apply nth_in in E;
    (eapply written_trans; [eapply w_pedigree, P|]).
  - apply w_ancestor, E.
  - apply w_descendant, E.
  - apply w_variant, E.
Qed.
Lemma w_below steps : forall c x, component_below c steps = Some x -> written (TRef "Component") (reify_Component c) (TRef "Component") (reify_Component x).
Proof.
  induction steps as [|s steps IH]; cbn [component_below]; intros c x E; [injection E as ->; apply written_here|].
  destruct (child c s) as [c'|] eqn:C; [|discriminate]. eapply written_trans; [eapply w_child, C|apply IH, E].
Qed.
Lemma component_written b r steps x : component_at b r steps = Some x -> written (TRef "BOM") (reify_BOM b) (TRef "Component") (reify_Component x).
Proof.
  unfold component_at. destruct (root_component b r) as [c|] eqn:R; [|discriminate]. intros E. eapply written_trans; [|eapply w_below, E].
  destruct r as [i|]; cbn [root_component] in R.
  - apply w_listed. eapply nth_in, R.
  - destruct (BOM_Metadata b) as [m|] eqn:M; [|discriminate]. eapply written_trans; [eapply w_metadata, M|apply w_described, R].
Qed.
Lemma w_evidence c e : Component_Evidence c = Some e -> written (TRef "Component") (reify_Component c) (TRef "Evidence") (reify_Evidence e).
Proof. intros E. eapply written_trans; [at_field 26%nat; [destruct c; reflexivity|eapply ptr_full, E]|apply written_ptr, E]. Qed.
Lemma w_identity c x : Evidence_Identity c = Some x -> written (TRef "Evidence") (reify_Evidence c) (TRef "EvidenceIdentityChoice") (reify_EvidenceIdentityChoice x).
Proof. intros E. eapply written_trans; [at_field 0%nat; [destruct c; reflexivity|eapply ptr_full, E]|apply written_ptr, E]. Qed.
Lemma w_crypto c x : Component_CryptoProperties c = Some x -> written (TRef "Component") (reify_Component c) (TRef "CryptoProperties") (reify_CryptoProperties x).
Proof. intros E. eapply written_trans; [at_field 30%nat; [destruct c; reflexivity|eapply ptr_full, E]|apply written_ptr, E]. Qed.
Lemma w_certificate c x : CryptoProperties_CertificateProperties c = Some x -> written (TRef "CryptoProperties") (reify_CryptoProperties c) (TRef "CertificateProperties") (reify_CertificateProperties x).
Proof. intros E. eapply written_trans; [at_field 2%nat; [destruct c; reflexivity|eapply ptr_full, E]|apply written_ptr, E]. Qed.
Lemma w_licenses c x : In x (members (Component_Licenses c)) -> written (TRef "Component") (reify_Component c) (TRef "LicenseChoice") (reify_LicenseChoice x).
Proof. intros E. eapply written_trans; [at_field 14%nat; [destruct c; reflexivity|eapply list_full, E]|apply (written_named _ (TRef "Licenses")); [reflexivity|exact E]]. Qed.
Lemma w_license c x : LicenseChoice_License c = Some x -> written (TRef "LicenseChoice") (reify_LicenseChoice c) (TRef "License") (reify_License x).
Proof. intros E. eapply written_trans; [at_field 0%nat; [destruct c; reflexivity|eapply ptr_full, E]|apply written_ptr, E]. Qed.

Lemma w_state c x : In x (members (CertificateProperties_CertificateState c)) ->
  written (TRef "CertificateProperties") (reify_CertificateProperties c) (TRef "CertificateState") (reify_CertificateState x).
Proof. intros E. eapply written_trans; [at_field 11%nat; [destruct c; reflexivity|eapply list_full, E]|apply written_list, E]. Qed.
Lemma w_extension c x : In x (members (CertificateProperties_CertificateExtensions c)) ->
  written (TRef "CertificateProperties") (reify_CertificateProperties c) (TRef "CertificateExtension") (reify_CertificateExtension x).
Proof. intros E. eapply written_trans; [at_field 12%nat; [destruct c; reflexivity|eapply list_full, E]|apply written_list, E]. Qed.

Lemma copied_then {R} (f : BOM -> R) (g : BOM -> BOM) (e : R) (k : result string BOM) c : k = Ok c ->
  match bind k (fun c => Ok (g c)) with Ok c => f c | Err _ => e end = f (g c).
Proof. intros ->. reflexivity. Qed.
Lemma encode_version_eq esc sv b c : copy b = Ok c -> json_encode_version esc sv b = json_encode esc (convert sv c).
Proof. unfold json_encode_version, copyAndConvert. apply copied_then. Qed.
