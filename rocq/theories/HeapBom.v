(** Whole BOMs on memory: convert.go computes ConvertModel.convert. Continues HeapTools.v. *)
From Coq Require Import Lia.
From Verif Require Import Base Types Univ TypeTable Reify Consts Version ConvertModel ConvertSpec ConvertProofs GobModel HeapModel HeapLogic HeapFields HeapProofs HeapConvert HeapTools.
Local Open Scope string_scope.
Local Open Scope prog_scope.
Local Open Scope list_scope.

Lemma whenPD {T} t (R : T -> val) b (D : T -> Prop) P (f : T -> T) : does t (vptr R) (fun o => exists y, o = Some y /\ D y) P (behind f) ->
  does t (vptr R) (fun o => exists y, o = Some y /\ D y) (fun l => whenp b (P l)) (behind (when b f)).
Proof. intros. eapply does_ext; [|apply does_when; eauto]. intros [x|] _; destruct b; reflexivity. Qed.
Lemma does_any {T} t (R : T -> val) (D : T -> Prop) P f : does t R always P f -> does t R D P f.
Proof. intros. eapply does_weaken; [|eauto]. intros; exact I. Qed.
Lemma presentD {T} t (R : T -> val) (D : T -> Prop) P f : does t (vptr R) present P f -> does t (vptr R) (fun o => exists y, o = Some y /\ D y) P f.
Proof. intros. eapply does_weaken; [|eauto]. intros o (y & -> & _). exists y. auto. Qed.

Section Converters.
  Variables (t : nat) (sv : SpecVersion).

  Lemma tool_does : does t reify_Tool always (fun l => hConvertTool sv (Some l)) (convertTool sv).
  Proof.
    unfold hConvertTool, unless_nil. eapply does_ext; [|repeat stmt; [apply refs_does|apply hashes_does]]. reflexivity.
  Qed.
  Definition tools_fun (c : ToolsChoice) : ToolsChoice :=
    over_ToolsChoice_Tools (each (convertTool sv))
      (over_ToolsChoice_Services (each (over_Service_Provider (behind (convertOrganizationalEntity sv))))
        (when (sv_lt sv SpecVersion1_5) flattenTools c)).
  Lemma tools_does : does t reify_ToolsChoice always (fun l => hConvertTools sv (Some l)) tools_fun.
  Proof.
    unfold hConvertTools, unless_nil.
    eapply does_ext; [|stmt; [stmt; apply flatten_does|repeat stmt; [apply entity_does|apply tool_does]]]. reflexivity.
  Qed.
  Lemma vulnerability_does : does t reify_Vulnerability always (hConvertVulnerability sv) (convertVulnerability sv).
  Proof.
    unfold hConvertVulnerability. cbv zeta.
    eapply does_ext; [|
      repeat lazymatch goal with
      | |- does _ _ always (fun l => hConvertTools _ (Some l)) _ => apply tools_does
      | |- does _ _ always (fun l => hConvertOrganizationalEntity _ (Some l)) _ => apply entity_does
      | |- does _ _ always (fun l => hConvertOrganizationalContact _ (Some l)) _ => apply contact_does
      | |- _ => stmt
      end]. reflexivity.
  Qed.
  Lemma vulnerabilities_does : does t (vslice reify_Vulnerability) always (fun l => hConvertVulnerabilities sv (Some l)) (option_map (map (convertVulnerability sv))).
  Proof. unfold hConvertVulnerabilities, unless_nil. apply rangeA, vulnerability_does. Qed.
  Lemma composition_does : does t reify_Composition always (hConvertComposition sv) (convertComposition sv).
  Proof. unfold hConvertComposition. eapply does_ext; [|repeat stmt]. reflexivity. Qed.
  Lemma compositions_does : does t (vslice reify_Composition) always (fun l => hConvertCompositions sv (Some l)) (option_map (map (convertComposition sv))).
  Proof. unfold hConvertCompositions, unless_nil. apply rangeA, composition_does. Qed.

  Definition shallow_annotator n (a : Annotator) : Prop := forall s, Annotator_Service a = Some s -> shallow_service n s.
  Definition shallow_annotation n (a : Annotation) : Prop := forall x, Annotation_Annotator a = Some x -> shallow_annotator n x.
  Lemma annotations_does n : does t (vslice reify_Annotation) (fun s => Forall (shallow_annotation (S n)) (elems s)) (fun l => hConvertAnnotations sv (S n) (Some l))
    (when (sv_lt sv SpecVersion1_6) (option_map (map (over_Annotation_Annotator (behind (convertAnnotator sv)))))).
  Proof.
    unfold hConvertAnnotations, unless_nil. apply does_when, does_range.
    eapply does_ext; [|eapply (does_field t reify_Annotation _ _ _ _ at_Annotation_Annotator (fun o => forall x, o = Some x -> shallow_annotator (S n) x) (fun l => guarded l _));
      apply guardD; eapply (seqPD t reify_Annotator (shallow_annotator (S n)) (shallow_annotator (S n)))].
    2: { apply presentD. stmt. stmt. apply entity_does. }
    2: { apply does_via. eapply (does_field t reify_Annotator _ _ _ _ at_Annotator_Service (fun o => forall s, o = Some s -> shallow_service (S n) s) (call _)).
         apply does_call; [reflexivity|apply recurseService_does]. }
    2: { intros a H. destruct a. exact H. }
    reflexivity.
  Qed.

  (** Metadata: the statements before the component keep it. *)
  Definition shallow_metadata n (m : Metadata) : Prop := forall c, Metadata_Component m = Some c -> shallow_component n c.
  Ltac leaf := lazymatch goal with
      | |- does _ _ always (fun l => hConvertTools _ (Some l)) _ => apply tools_does
      | |- does _ _ always (fun l => hConvertLicenses _ (Some l)) _ => apply licenses_does
      | |- does _ _ always (fun l => hConvertOrganizationalEntity _ (Some l)) _ => apply entity_does
      | |- does _ _ always (fun l => hConvertOrganizationalContact _ (Some l)) _ => apply contact_does
      | |- does _ _ always (fun l => hConvertVulnerabilities _ (Some l)) _ => apply vulnerabilities_does
      | |- does _ _ always (fun l => hConvertCompositions _ (Some l)) _ => apply compositions_does
      | |- does _ _ always (fun l => hConvertExternalReferences _ (Some l)) _ => apply refs_does
      | |- _ => stmt
      end.
  Ltac gate := lazymatch goal with
      | |- does ?t (vptr ?R) (fun o => exists y, o = Some y /\ ?D y) (fun l => and_then _ _) _ => eapply (seqPD t R D D); [apply presentD; repeat leaf| |]
      | |- _ => idtac
      end.
  Lemma metadata_does n : does t (vptr reify_Metadata) (fun o => exists y, o = Some y /\ shallow_metadata (S n) y) (hConvertMetadata sv (S n)) (behind (convertMetadata sv)).
  Proof.
    unfold hConvertMetadata. cbv zeta.
    eapply does_ext; [|gate; gate; gate; gate; [eapply (seqPD t reify_Metadata (shallow_metadata (S n)) always); [| |intros; exact I]|..]].
    2: { apply does_via. eapply (does_field t reify_Metadata _ _ _ _ at_Metadata_Component (fun o => forall s, o = Some s -> shallow_component (S n) s) (call _)).
         apply does_call; [reflexivity|apply recurseComponent_does]. }
    2: { apply presentD. repeat leaf. }
    2-5: intros m H; unfold shallow_metadata, when in *; repeat match goal with |- context [if ?b then _ else _] => destruct b end; destruct m; exact H.
    reflexivity.
  Qed.

  (** The BOM *)
  Definition deep_services n (b : BOM) : Prop := all_shallow_s n (BOM_Services b).
  Definition deep_annotations n (b : BOM) : Prop := forall s, BOM_Annotations b = Some s -> Forall (shallow_annotation n) (elems s).
  Definition deep_components n (b : BOM) : Prop := all_shallow n (BOM_Components b).
  Definition deep_metadata n (b : BOM) : Prop := forall m, BOM_Metadata b = Some m -> shallow_metadata n m.
  Definition shallow_3 n b := deep_annotations n b.
  Definition shallow_2 n b := deep_services n b /\ deep_annotations n b.
  Definition shallow_1 n b := deep_components n b /\ deep_services n b /\ deep_annotations n b.
  Definition shallow_bom n b := deep_metadata n b /\ deep_components n b /\ deep_services n b /\ deep_annotations n b.

  Ltac bgate := lazymatch goal with
      | |- does ?t ?R ?D (fun l => and_then _ _) _ => eapply (does_seq t R D D); [apply does_any; repeat leaf| |]
      | |- _ => idtac
      end.
  Ltac kept := intros b H; unfold shallow_bom, shallow_2, shallow_1, shallow_3, deep_services, deep_annotations, deep_components, deep_metadata, when in *;
      repeat match goal with |- context [if ?b then _ else _] => destruct b end; destruct b; cbn in *; intuition (congruence || auto).
  Lemma same_dependencies b x : over_BOM_Dependencies (behind (when b (option_map (map (over_Dependency_Provides (fun _ => None)))))) x =
    when b (over_BOM_Dependencies (each (set_Dependency_Provides None))) x.
  Proof. destruct b; [reflexivity|]. destruct x as [? ? ? ? ? ? ? ? ? ? ? [d|] ? ? ? ? ? ? ? ? ?]; reflexivity. Qed.
  Lemma same_annotations x : over_BOM_Annotations (behind (when (sv_lt sv SpecVersion1_6) (option_map (map (over_Annotation_Annotator (behind (convertAnnotator sv))))))) x =
    over_BOM_Annotations (convertAnnotations sv) x.
  Proof. destruct x as [? ? ? ? ? ? ? ? ? ? ? ? ? ? ? [a|] ? ? ? ? ?]; unfold convertAnnotations; destruct (sv_lt sv SpecVersion1_6); reflexivity. Qed.
  Lemma convert_does n : does t reify_BOM (shallow_bom (S n)) (hConvert sv (S n)) (convert sv).
  Proof.
    unfold hConvert. cbv zeta.
    eapply does_ext; [|bgate; bgate; bgate; bgate; bgate; bgate; bgate; bgate;
      [eapply (does_seq t reify_BOM (shallow_bom (S n)) (shallow_1 (S n))); [|eapply (does_seq t reify_BOM (shallow_1 (S n)) (shallow_2 (S n))); [|
         eapply (does_seq t reify_BOM (shallow_2 (S n)) (shallow_3 (S n))); [|bgate; bgate; bgate; [eapply (does_seq t reify_BOM (shallow_3 (S n)) always)|..]|]|]|]|..]].
    all: cycle 1.
    { eapply does_weaken; [|eapply (does_field t reify_BOM _ _ _ _ at_BOM_Metadata (fun o => forall m, o = Some m -> shallow_metadata (S n) m) (fun l => guarded l _)); apply guardD, metadata_does].
      intros b H. apply H. }
    { eapply does_weaken; [|eapply (does_field t reify_BOM _ _ _ _ at_BOM_Components (all_shallow (S n)) (fun l => for_each l _)), does_for_each, recurseComponent_does].
      intros b H. apply H. }
    { eapply does_weaken; [|eapply (does_field t reify_BOM _ _ _ _ at_BOM_Services (all_shallow_s (S n)) (fun l => for_each l _)), does_for_each, recurseService_does].
      intros b H. apply H. }
    { eapply (does_field t reify_BOM _ _ _ _ at_BOM_Annotations (fun o => forall s, o = Some s -> Forall (shallow_annotation (S n)) (elems s)) (fun l => guarded l _)).
      apply guardD. eapply does_weaken; [|apply does_call; [reflexivity|apply annotations_does]]. intros o (y & -> & H) z [= <-]. exact H. }
    { repeat leaf. }
    all: lazymatch goal with |- forall x, _ -> always _ => intros; exact I | |- forall x, _ -> _ = _ => idtac | |- _ => kept end.
    intros x _. cbv beta.
    rewrite (same_dependencies (sv_lt sv SpecVersion1_6)), same_annotations. reflexivity.
  Qed.
End Converters.
