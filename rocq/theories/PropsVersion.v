(** Property theorems C18, C19 (lookup), C33 and the media type part of C15. *)
From Verif Require Import Base Types Version ConvertModel ConvertSpec LinkModel VersionProofs.
From Coq Require Import Permutation.
Local Open Scope string_scope.
Local Open Scope Z_scope.

(** C18: exactly the eight version texts are accepted, each giving its version. *)
Theorem C18_accepts_exactly : forall s sv,
  parse_spec_version s = Some sv <-> is_version sv = true /\ s = version_text sv.
Proof. exact parse_spec_version_spec. Qed.
Print Assumptions C18_accepts_exactly.

(** C18: what a valid version prints is read back as that version; what any other
    int prints is rejected. *)
Theorem C18_roundtrip : forall sv, is_version sv = true -> parse_spec_version (SpecVersion_String sv) = Some sv.
Proof. exact spec_version_roundtrip. Qed.
Print Assumptions C18_roundtrip.

Theorem C18_out_of_range : forall sv, is_version sv = false -> parse_spec_version (SpecVersion_String sv) = None.
Proof. exact spec_version_invalid. Qed.
Print Assumptions C18_out_of_range.

Theorem C18_text : forall sv,
  SpecVersion_String sv = if is_version sv then version_text sv else "SpecVersion(" ++ format_int sv ++ ")".
Proof. exact spec_version_string. Qed.
Print Assumptions C18_text.

Theorem C18_distinct : forall a b,
  is_int a = true -> is_int b = true -> is_version a = true -> SpecVersion_String a = SpecVersion_String b -> a = b.
Proof. exact spec_version_string_inj. Qed.
Print Assumptions C18_distinct.

Example C18_nonvacuous :
  parse_spec_version "1.5" = Some 6 /\ parse_spec_version "1.8" = None /\ parse_spec_version "" = None /\
  parse_spec_version " 1.5" = None /\ SpecVersion_String 0 = "SpecVersion(0)" /\ SpecVersion_String (-3) = "SpecVersion(-3)".
Proof. vm_compute. repeat split. Qed.

(** C19: whatever order the runtime enumerates the map in, the version is the one
    whose namespace the document has; otherwise it stays as it was. *)
Theorem C19_namespace_lookup : forall entries ns old,
  Permutation entries xmlNamespaces ->
  (forall v, is_version v = true -> ns = namespace_of v -> match_namespace entries ns old = v) /\
  ((forall v, is_version v = true -> ns <> namespace_of v) -> match_namespace entries ns old = old).
Proof. exact match_namespace_spec. Qed.
Print Assumptions C19_namespace_lookup.

Example C19_nonvacuous :
  Permutation (rev xmlNamespaces) xmlNamespaces /\ rev xmlNamespaces <> xmlNamespaces /\
  match_namespace (rev xmlNamespaces) "http://cyclonedx.org/schema/bom/1.4" 0 = 5 /\
  match_namespace (rev xmlNamespaces) "http://cyclonedx.org/schema/bom/2.0" 3 = 3.
Proof. split; [apply Permutation_sym, Permutation_rev|]. split; [discriminate|]. vm_compute. auto. Qed.

(** C15: the media type with version exists for exactly the versions JSON knows. *)
Theorem C15_media_type : forall mt sv,
  (exists e, MediaType_WithVersion mt sv = Err e) <-> mt = MediaTypeJSON /\ sv < v1_2.
Proof. exact with_version_err. Qed.
Print Assumptions C15_media_type.

Theorem C15_media_type_text : forall sv s,
  MediaType_WithVersion MediaTypeJSON sv = Ok s -> is_version sv = true ->
  s = "application/vnd.cyclonedx+json; version=" ++ version_text sv.
Proof. exact with_version_ok. Qed.
Print Assumptions C15_media_type_text.

Example C15_media_type_nonvacuous :
  MediaType_WithVersion MediaTypeJSON v1_2 = Ok "application/vnd.cyclonedx+json; version=1.2" /\
  MediaType_WithVersion MediaTypeXML v1_0 = Ok "application/vnd.cyclonedx+xml; version=1.0" /\
  MediaType_WithVersion MediaTypeJSON v1_1 = Err "json format is not supported for specification versions lower than 1.2".
Proof. vm_compute. auto. Qed.

(** C33: NewBOM has version 1, the format marker and the newest version's markers,
    everything else is absent, and converting it to its version changes nothing. *)
Theorem C33_new_bom :
  NewBOM = set_BOM_BOMFormat "CycloneDX" (set_BOM_Version 1 (set_BOM_SpecVersion v1_7
             (set_BOM_XMLNS (namespace_of v1_7) (set_BOM_JSONSchema (schema_of v1_7) zero_BOM)))).
Proof. reflexivity. Qed.
Print Assumptions C33_new_bom.

Theorem C33_convert_fixpoint : convert v1_7 NewBOM = NewBOM.
Proof. exact new_bom_fixpoint. Qed.
Print Assumptions C33_convert_fixpoint.
