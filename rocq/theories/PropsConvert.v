(** Property theorems C02-C09 and C13: version conversion (/repo/convert.go).
    Statements only; the vocabulary is in ConvertSpec.v (versions, enumerations)
    and ConvertReach.v (paths, fields per version). *)
From Verif Require Import Base Types Version ConvertModel ConvertSpec ConvertReach ConvertProofs ConvertReachProofs ConvertPropProofs ExampleBom.
From Coq Require Import Lia.
Local Open Scope string_scope.
Local Open Scope Z_scope.

(** The conversion is, field by field, the table of ConvertSpec.v. *)
Theorem convert_is_the_table : forall sv b, convert sv b = bom_in sv b.
Proof. exact convert_spec. Qed.
Print Assumptions convert_is_the_table.

(** C02: the markers say [sv], whatever they said before. *)
Theorem C02_markers : forall sv b,
  BOM_SpecVersion (convert sv b) = sv /\ BOM_XMLNS (convert sv b) = namespace_of sv /\ BOM_JSONSchema (convert sv b) = schema_of sv.
Proof. exact markers. Qed.
Print Assumptions C02_markers.

Example C02_nonvacuous :
  BOM_XMLNS (convert v1_3 ex_bom) = "http://cyclonedx.org/schema/bom/1.3" /\ BOM_XMLNS ex_bom = "http://cyclonedx.org/schema/bom/1.7" /\
  BOM_JSONSchema (convert v1_3 ex_bom) = "http://cyclonedx.org/schema/bom-1.3.schema.json" /\
  BOM_JSONSchema (convert v1_1 ex_bom) = "" /\ BOM_XMLNS (convert 9 ex_bom) = "" /\ BOM_XMLNS (convert 0 ex_bom) = "".
Proof. vm_compute. repeat split. Qed.

(** C03: sections newer than the version are gone, the others stay. *)
Theorem C03_sections : forall sv b,
  sections_removed sv (convert sv b) /\ sections_kept sv b (convert sv b).
Proof. intros sv b. exact (conj (sections_removed_convert sv b) (sections_kept_convert sv b)). Qed.
Print Assumptions C03_sections.

Theorem C03_metadata : forall sv b m',
  BOM_Metadata (convert sv b) = Some m' ->
  exists m, BOM_Metadata b = Some m /\ metadata_clean sv m' /\ metadata_kept sv m m'.
Proof. exact metadata_gates. Qed.
Print Assumptions C03_metadata.

Theorem C03_compositions : forall sv b, v1_3 <= sv ->
  Forall2 (composition_downgraded sv) (members (BOM_Compositions b)) (members (BOM_Compositions (convert sv b))).
Proof. exact compositions_downgraded. Qed.
Print Assumptions C03_compositions.

Theorem C03_vulnerabilities : forall sv b, v1_4 <= sv ->
  Forall2 (vulnerability_downgraded sv) (members (BOM_Vulnerabilities b)) (members (BOM_Vulnerabilities (convert sv b))).
Proof. exact vulnerabilities_downgraded. Qed.
Print Assumptions C03_vulnerabilities.

Theorem C03_dependencies : forall sv b, v1_2 <= sv ->
  Forall2 (fun d d' => Dependency_Ref d' = Dependency_Ref d /\ Dependency_Dependencies d' = Dependency_Dependencies d /\
                       older sv v1_6 (Dependency_Provides d' = None) /\ newer sv v1_6 (Dependency_Provides d' = Dependency_Provides d))
          (members (BOM_Dependencies b)) (members (BOM_Dependencies (convert sv b))).
Proof. exact dependencies_kept. Qed.
Print Assumptions C03_dependencies.

Example C03_nonvacuous :
  BOM_Citations ex_bom <> None /\ BOM_Citations (convert v1_6 ex_bom) = None /\
  BOM_Vulnerabilities (convert v1_4 ex_bom) <> None /\ BOM_Vulnerabilities (convert v1_3 ex_bom) = None /\
  members (BOM_Dependencies (convert v1_5 ex_bom)) = [mkDependency "a" (list_of ["b"]) None].
Proof. vm_compute. repeat split; discriminate. Qed.

(** C04: at every depth, no component keeps a field newer than the version. *)
Theorem C04_components_clean : forall sv b r steps c',
  component_at (convert sv b) r steps = Some c' -> component_clean sv c'.
Proof. exact component_gates. Qed.
Print Assumptions C04_components_clean.

Example C04_nonvacuous :
  option_map Component_Tags (component_at ex_bom Described [Ancestor 0; Nested 0]) = Some (list_of ["t"]) /\
  option_map Component_Tags (component_at (convert v1_5 ex_bom) Described [Ancestor 0; Nested 0]) = Some None.
Proof. vm_compute. auto. Qed.

(** C05: at every depth, no service keeps a gated field newer than the version. *)
Theorem C05_services_clean : forall sv b i path s',
  service_at (convert sv b) i path = Some s' -> service_clean sv s'.
Proof. exact service_gates. Qed.
Print Assumptions C05_services_clean.

Example C05_nonvacuous :
  option_map Service_TrustZone (service_at ex_bom 0 [1%nat]) = Some "zone" /\
  option_map Service_TrustZone (service_at (convert v1_4 ex_bom) 0 [1%nat]) = Some "".
Proof. vm_compute. auto. Qed.

(** C06: the licenses of every component, of the metadata and, from 1.5 on, of the
    evidence of every component are downgraded; for the metadata see [metadata_kept]
    in C03_metadata. *)
Theorem C06_component_licenses : forall sv b r steps c c',
  component_at b r steps = Some c -> component_at (convert sv b) r steps = Some c' ->
  licenses_downgraded sv (Component_Licenses c) (Component_Licenses c').
Proof. exact component_licenses. Qed.
Print Assumptions C06_component_licenses.

Theorem C06_evidence_licenses_partial : forall sv b r steps c c' e,
  component_at b r steps = Some c -> component_at (convert sv b) r steps = Some c' ->
  Component_Evidence c = Some e -> v1_5 <= sv ->
  exists e', Component_Evidence c' = Some e' /\ licenses_downgraded sv (Evidence_Licenses e) (Evidence_Licenses e').
Proof. exact evidence_licenses. Qed.
Print Assumptions C06_evidence_licenses_partial.

(** Finding: for 1.3 and 1.4 the licenses of the evidence are not converted. *)
Theorem C06_evidence_licenses_refuted : forall sv, v1_3 <= sv < v1_5 ->
  exists b c' e' lc l,
    component_at (convert sv b) (Listed 0) [] = Some c' /\ Component_Evidence c' = Some e' /\
    In lc (members (Evidence_Licenses e')) /\ LicenseChoice_License lc = Some l /\ License_BOMRef l = "lic".
Proof.
  intros sv H.
  exists (set_BOM_Components (list_of [set_Component_Evidence (Some (set_Evidence_Licenses (list_of [ex_license]) zero_Evidence)) zero_Component]) NewBOM).
  assert (sv = 4 \/ sv = 5) as [-> | ->] by (unfold v1_3, v1_5 in H; lia);
    do 4 eexists; (split; [vm_compute; reflexivity|]); (split; [reflexivity|]); (split; [left; reflexivity|]); split; reflexivity.
Qed.
Print Assumptions C06_evidence_licenses_refuted.

Example C06_nonvacuous :
  option_map (fun c => map license_names (members (Component_Licenses c))) (component_at ex_bom (Listed 1) [Nested 1]) =
    Some [Some ("MIT", ""); None] /\
  option_map (fun c => map license_names (members (Component_Licenses c))) (component_at (convert v1_0 ex_bom) (Listed 1) [Nested 1]) =
    Some [Some ("MIT", "")] /\
  option_map (fun c => map LicenseChoice_Expression (members (Component_Licenses c))) (component_at (convert v1_1 ex_bom) (Listed 1) [Nested 1]) =
    Some [""; "MIT OR Apache-2.0"].
Proof. vm_compute. auto. Qed.

(** C07: hashes of components are filtered, in order; for tools see C08. *)
Theorem C07_component_hashes : forall sv b r steps c c',
  component_at b r steps = Some c -> component_at (convert sv b) r steps = Some c' ->
  hashes_downgraded sv (Component_Hashes c) (Component_Hashes c').
Proof. exact component_hashes. Qed.
Print Assumptions C07_component_hashes.

Example C07_nonvacuous :
  option_map (fun c => members (Component_Hashes c)) (component_at (convert v1_1 ex_bom) (Listed 1) [Nested 1; Nested 0]) =
    Some [mkHash "MD5" "m"; mkHash "SHA-1" "s"].
Proof. vm_compute. auto. Qed.

(** C08: tools of the metadata and of every vulnerability. *)
Theorem C08_metadata_tools : forall sv b m m',
  BOM_Metadata b = Some m -> BOM_Metadata (convert sv b) = Some m' -> tools_downgraded sv (Metadata_Tools m) (Metadata_Tools m').
Proof. exact metadata_tools. Qed.
Print Assumptions C08_metadata_tools.

Theorem C08_vulnerability_tools : forall sv b, v1_4 <= sv ->
  Forall2 (fun v v' => tools_downgraded sv (Vulnerability_Tools v) (Vulnerability_Tools v'))
          (members (BOM_Vulnerabilities b)) (members (BOM_Vulnerabilities (convert sv b))).
Proof. exact vulnerability_tools. Qed.
Print Assumptions C08_vulnerability_tools.

Example C08_nonvacuous :
  option_map (fun m => option_map (fun t => map (fun t => (Tool_Name t, Tool_Vendor t)) (members (ToolsChoice_Tools t))) (Metadata_Tools m)) (BOM_Metadata (convert v1_4 ex_bom)) =
    Some (Some [("t1", ""); ("t2", ""); ("t3", "acme")]).
Proof. vm_compute. auto. Qed.

(** C09: enumerated values. *)
Theorem C09_component_enums : forall sv b r steps c c',
  component_at b r steps = Some c -> component_at (convert sv b) r steps = Some c' -> component_enums_downgraded sv c c'.
Proof. exact component_enums. Qed.
Print Assumptions C09_component_enums.

Theorem C09_service_extrefs : forall sv b i path s s',
  service_at b i path = Some s -> service_at (convert sv b) i path = Some s' ->
  extref_types_downgraded sv (Service_ExternalReferences s) (Service_ExternalReferences s').
Proof. exact service_enums. Qed.
Print Assumptions C09_service_extrefs.

Theorem C09_bom_extrefs : forall sv b, v1_1 <= sv ->
  extref_types_downgraded sv (BOM_ExternalReferences b) (BOM_ExternalReferences (convert sv b)).
Proof. exact bom_extrefs. Qed.
Print Assumptions C09_bom_extrefs.

(** Aggregates and scoring methods: C03_compositions, C03_vulnerabilities. The
    fallback is itself a value of the version. *)
Theorem C09_fallbacks_defined : forall sv,
  (v1_0 <= sv -> in_enum component_types sv "application" = true) /\
  (v1_1 <= sv -> in_open_enum external_reference_types v1_1 sv "other" = true) /\
  (v1_3 <= sv -> in_open_enum composition_aggregates v1_3 sv "unknown" = true) /\
  (v1_4 <= sv -> in_enum scoring_methods sv "other" = true).
Proof. exact fallbacks_defined. Qed.
Print Assumptions C09_fallbacks_defined.

Example C09_nonvacuous :
  option_map Component_Type (component_at (convert v1_4 ex_bom) (Listed 1) [Ancestor 0]) = Some "application" /\
  option_map Component_Type (component_at (convert v1_5 ex_bom) (Listed 1) [Ancestor 0]) = Some "machine-learning-model" /\
  option_map Component_Scope (component_at (convert v1_1 ex_bom) (Listed 1) [Ancestor 0]) = Some "" /\
  option_map (fun c => map ExternalReference_Type (members (Component_ExternalReferences c))) (component_at (convert v1_4 ex_bom) (Listed 1) []) = Some ["other"; "vcs"] /\
  map Composition_Aggregate (members (BOM_Compositions (convert v1_4 ex_bom))) = ["unknown"].
Proof. vm_compute. repeat split. Qed.

(** C13: at every path the version has a place for there is a component in the
    output exactly if there is one in the input, and it is the same component up to
    removed fields; elsewhere there is none. Order and number of children follow,
    since paths use indices. *)
Theorem C13_component_tree : forall sv b r steps,
  (has_place sv r steps ->
     match component_at b r steps, component_at (convert sv b) r steps with
     | Some c, Some c' => component_kept sv c c'
     | None, None => True
     | _, _ => False
     end) /\
  (~ has_place sv r steps -> component_at (convert sv b) r steps = None).
Proof. exact component_tree. Qed.
Print Assumptions C13_component_tree.

Theorem C13_service_tree : forall sv b i path,
  (v1_2 <= sv ->
     match service_at b i path, service_at (convert sv b) i path with
     | Some s, Some s' => service_kept sv s s'
     | None, None => True
     | _, _ => False
     end) /\
  (sv < v1_2 -> service_at (convert sv b) i path = None).
Proof. exact service_tree. Qed.
Print Assumptions C13_service_tree.

Example C13_nonvacuous :
  has_place v1_2 Described [Ancestor 0; Nested 0] /\
  option_map Component_Name (component_at (convert v1_2 ex_bom) Described [Ancestor 0; Nested 0]) = Some "deep" /\
  ~ has_place v1_0 (Listed 1) [Ancestor 0] /\
  component_at ex_bom (Listed 1) [Ancestor 0] <> None /\ component_at (convert v1_0 ex_bom) (Listed 1) [Ancestor 0] = None.
Proof.
  split; [split; intros; vm_compute; discriminate|]. split; [vm_compute; reflexivity|].
  split; [intros [_ H]; specialize (H eq_refl); apply H; reflexivity|]. split; vm_compute; [discriminate|reflexivity].
Qed.
