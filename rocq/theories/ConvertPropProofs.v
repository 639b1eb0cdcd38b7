(** Lemmas behind PropsConvert.v. *)
From Verif Require Import Base Types TypesFacts Consts Version ConvertModel ConvertSpec ConvertProofs ConvertReach ConvertReachProofs.
From Coq Require Import Lia.
Local Open Scope string_scope.
Local Open Scope Z_scope.

Lemma markers sv b :
  BOM_SpecVersion (convert sv b) = sv /\ BOM_XMLNS (convert sv b) = namespace_of sv /\ BOM_JSONSchema (convert sv b) = schema_of sv.
Proof. rewrite convert_spec. repeat split. Qed.

Lemma metadata_gates sv b m' :
  BOM_Metadata (convert sv b) = Some m' ->
  exists m, BOM_Metadata b = Some m /\ metadata_clean sv m' /\ metadata_kept sv m m'.
Proof.
  rewrite metadata_convert. destruct (v1_2 <=? sv); [|discriminate].
  destruct (BOM_Metadata b) as [m|]; [|discriminate]. intros [= <-].
  exists m. split; [reflexivity|]. split; [apply metadata_in_clean|apply metadata_in_kept].
Qed.

Lemma component_gates sv b r steps c' :
  component_at (convert sv b) r steps = Some c' -> component_clean sv c'.
Proof. intros H. apply component_at_image in H as (_ & c & _ & ->). apply component_in_clean. Qed.

Lemma service_gates sv b i path s' : service_at (convert sv b) i path = Some s' -> service_clean sv s'.
Proof. intros H. apply service_at_image in H as (_ & s & _ & ->). apply service_in_clean. Qed.

Lemma component_tree sv b r steps :
  (has_place sv r steps ->
     match component_at b r steps, component_at (convert sv b) r steps with
     | Some c, Some c' => component_kept sv c c'
     | None, None => True
     | _, _ => False
     end) /\
  (~ has_place sv r steps -> component_at (convert sv b) r steps = None).
Proof.
  split.
  - intros H. rewrite component_at_convert by exact H. destruct (component_at b r steps) as [c|]; cbn; [apply component_in_kept|exact I].
  - apply component_at_no_place.
Qed.

Lemma service_tree sv b i path :
  (v1_2 <= sv ->
     match service_at b i path, service_at (convert sv b) i path with
     | Some s, Some s' => service_kept sv s s'
     | None, None => True
     | _, _ => False
     end) /\
  (sv < v1_2 -> service_at (convert sv b) i path = None).
Proof.
  split.
  - intros H. rewrite service_at_convert by exact H. destruct (service_at b i path) as [s|]; cbn; [apply service_in_kept|exact I].
  - apply service_at_no_place.
Qed.

Lemma component_licenses sv b r steps c c' :
  component_at b r steps = Some c -> component_at (convert sv b) r steps = Some c' ->
  licenses_downgraded sv (Component_Licenses c) (Component_Licenses c').
Proof.
  intros H H'. apply component_at_image in H' as (_ & c0 & E & ->). rewrite H in E. injection E as <-.
  rewrite component_in_fix. cf. apply licenses_in_downgraded.
Qed.

Lemma evidence_licenses sv b r steps c c' e :
  component_at b r steps = Some c -> component_at (convert sv b) r steps = Some c' ->
  Component_Evidence c = Some e -> v1_5 <= sv ->
  exists e', Component_Evidence c' = Some e' /\ licenses_downgraded sv (Evidence_Licenses e) (Evidence_Licenses e').
Proof.
  intros H H' He L. apply component_at_image in H' as (_ & c0 & E & ->). rewrite H in E. injection E as <-.
  rewrite component_in_fix. cf. assert (v1_3 <= sv) by (unfold v1_3, v1_5 in *; lia). gate_simpl. rewrite He. cbn [if_present].
  eexists; split; [reflexivity|]. unfold evidence_in; cbn [Evidence_Licenses]. destruct (Z.ltb_spec sv v1_5); [lia|].
  apply licenses_in_downgraded.
Qed.

Lemma component_hashes sv b r steps c c' :
  component_at b r steps = Some c -> component_at (convert sv b) r steps = Some c' ->
  hashes_downgraded sv (Component_Hashes c) (Component_Hashes c').
Proof.
  intros H H'. apply component_at_image in H' as (_ & c0 & E & ->). rewrite H in E. injection E as <-.
  rewrite component_in_fix. cf. apply hashes_in_downgraded.
Qed.

Lemma component_enums sv b r steps c c' :
  component_at b r steps = Some c -> component_at (convert sv b) r steps = Some c' -> component_enums_downgraded sv c c'.
Proof.
  intros H H'. apply component_at_image in H' as (_ & c0 & E & ->). rewrite H in E. injection E as <-. apply component_in_enums.
Qed.

Lemma service_enums sv b i path s s' :
  service_at b i path = Some s -> service_at (convert sv b) i path = Some s' ->
  extref_types_downgraded sv (Service_ExternalReferences s) (Service_ExternalReferences s').
Proof.
  intros H H'. apply service_at_image in H' as (_ & c0 & E & ->). rewrite H in E. injection E as <-.
  rewrite service_in_fix. apply extref_types_in.
Qed.

Lemma bom_extrefs sv b : v1_1 <= sv ->
  extref_types_downgraded sv (BOM_ExternalReferences b) (BOM_ExternalReferences (convert sv b)).
Proof. intros L. rewrite convert_spec. bf. gate_simpl. apply extref_types_in. Qed.

Lemma metadata_tools sv b m m' :
  BOM_Metadata b = Some m -> BOM_Metadata (convert sv b) = Some m' -> tools_downgraded sv (Metadata_Tools m) (Metadata_Tools m').
Proof.
  intros H. rewrite metadata_convert, H. destruct (v1_2 <=? sv); [|discriminate]. intros [= <-]. apply tools_in_downgraded.
Qed.

Lemma vulnerabilities_downgraded sv b : v1_4 <= sv ->
  Forall2 (vulnerability_downgraded sv) (members (BOM_Vulnerabilities b)) (members (BOM_Vulnerabilities (convert sv b))).
Proof. intros L. rewrite convert_spec. bf. gate_simpl. apply Forall2_in_place, vulnerability_in_downgraded. Qed.

Lemma compositions_downgraded sv b : v1_3 <= sv ->
  Forall2 (composition_downgraded sv) (members (BOM_Compositions b)) (members (BOM_Compositions (convert sv b))).
Proof. intros L. rewrite convert_spec. bf. gate_simpl. apply Forall2_in_place, composition_in_downgraded. Qed.

Lemma dependencies_kept sv b : v1_2 <= sv ->
  Forall2 (fun d d' => Dependency_Ref d' = Dependency_Ref d /\ Dependency_Dependencies d' = Dependency_Dependencies d /\
                       older sv v1_6 (Dependency_Provides d' = None) /\ newer sv v1_6 (Dependency_Provides d' = Dependency_Provides d))
          (members (BOM_Dependencies b)) (members (BOM_Dependencies (convert sv b))).
Proof.
  intros L. rewrite convert_spec. bf. gate_simpl. apply Forall2_in_place. intros d. unfold older, newer, dependency_in. cbn.
  repeat split; intros; gate_simpl; reflexivity.
Qed.

Lemma fallbacks_defined sv :
  (v1_0 <= sv -> in_enum component_types sv "application" = true) /\
  (v1_1 <= sv -> in_open_enum external_reference_types v1_1 sv "other" = true) /\
  (v1_3 <= sv -> in_open_enum composition_aggregates v1_3 sv "unknown" = true) /\
  (v1_4 <= sv -> in_enum scoring_methods sv "other" = true).
Proof. repeat split; intros H; cbn; apply Z.leb_le; exact H. Qed.

Lemma Forall2_weaken {A B} (P Q : A -> B -> Prop) l l' : (forall x y, P x y -> Q x y) -> Forall2 P l l' -> Forall2 Q l l'.
Proof. intros H F. induction F; constructor; auto. Qed.

Lemma vulnerability_tools sv b : v1_4 <= sv ->
  Forall2 (fun v v' => tools_downgraded sv (Vulnerability_Tools v) (Vulnerability_Tools v'))
          (members (BOM_Vulnerabilities b)) (members (BOM_Vulnerabilities (convert sv b))).
Proof.
  intros H. refine (Forall2_weaken _ _ _ _ _ (vulnerabilities_downgraded sv b H)).
  intros v v' D. unfold vulnerability_downgraded in D. do 15 apply proj2 in D. exact (proj1 D).
Qed.
