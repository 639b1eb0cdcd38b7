(** Specification versions, media types, namespaces and NewBOM.
    Models /repo/cyclonedx.go:133-141, 1027-1040, 1403-1414,
    /repo/cyclonedx_string.go, /repo/cyclonedx_json.go:103-136,452-461,
    /repo/cyclonedx_xml.go:1260-1269 and /repo/decode.go:60-67. *)
From Verif Require Import Base Types Consts LinkModel.
Local Open Scope string_scope.

(** /repo/cyclonedx.go:1405-1414 (iota + 1) *)
Definition SpecVersion1_0 : SpecVersion := 1%Z.
Definition SpecVersion1_1 : SpecVersion := 2%Z.
Definition SpecVersion1_2 : SpecVersion := 3%Z.
Definition SpecVersion1_3 : SpecVersion := 4%Z.
Definition SpecVersion1_4 : SpecVersion := 5%Z.
Definition SpecVersion1_5 : SpecVersion := 6%Z.
Definition SpecVersion1_6 : SpecVersion := 7%Z.
Definition SpecVersion1_7 : SpecVersion := 8%Z.

(** /repo/cyclonedx.go:1028-1032 (iota + 1) *)
Definition MediaTypeJSON : MediaType := 1%Z.
Definition MediaTypeXML : MediaType := 2%Z.
Definition MediaTypeProtobuf : MediaType := 3%Z.

(** Go's [s[lo:hi]] *)
Definition substr (lo hi : nat) (s : string) : string := String.substring lo (hi - lo) s.

(** The body of a function generated by stringer: an out-of-range value prints as
    name(value), the others are slices of a name table. *)
Definition stringer (tyname names : string) (index : list nat) (i : Z) : string :=
  let idx := (i - 1)%Z in
  if (Z.ltb i 1 || Z.leb (Z.of_nat (length index) - 1) idx)%bool
  then tyname ++ "(" ++ format_int i ++ ")"
  else substr (nth (Z.to_nat idx) index 0) (nth (Z.to_nat (idx + 1)) index 0) names.

(** /repo/cyclonedx_string.go:18-28 *)
Definition MediaType_name := "application/vnd.cyclonedx+jsonapplication/vnd.cyclonedx+xmlapplication/x.vnd.cyclonedx+protobuf".
Definition MediaType_index : list nat := [0; 30; 59; 95].
Definition MediaType_String (i : MediaType) : string := stringer "MediaType" MediaType_name MediaType_index i.

(** /repo/cyclonedx_string.go:42-52 *)
Definition SpecVersion_name := "1.01.11.21.31.41.51.61.7".
Definition SpecVersion_index : list nat := [0; 3; 6; 9; 12; 15; 18; 21; 24].
Definition SpecVersion_String (i : SpecVersion) : string := stringer "SpecVersion" SpecVersion_name SpecVersion_index i.

(** /repo/cyclonedx.go:1034-1040 *)
Definition MediaType_WithVersion (mt : MediaType) (sv : SpecVersion) : result string string :=
  if ((mt =? MediaTypeJSON)%Z && (sv <? SpecVersion1_2)%Z)%bool
  then Err ("json format is not supported for specification versions lower than " ++ SpecVersion_String SpecVersion1_2)
  else Ok (MediaType_String mt ++ "; version=" ++ SpecVersion_String sv).

(** The switch of SpecVersion.UnmarshalJSON, /repo/cyclonedx_json.go:114-133, and
    of SpecVersion.UnmarshalXML, /repo/cyclonedx_xml.go:396-415. [None] is
    ErrInvalidSpecVersion. *)
Definition parse_spec_version (v : string) : option SpecVersion :=
  if str_eqb v (SpecVersion_String SpecVersion1_0) then Some SpecVersion1_0
  else if str_eqb v (SpecVersion_String SpecVersion1_1) then Some SpecVersion1_1
  else if str_eqb v (SpecVersion_String SpecVersion1_2) then Some SpecVersion1_2
  else if str_eqb v (SpecVersion_String SpecVersion1_3) then Some SpecVersion1_3
  else if str_eqb v (SpecVersion_String SpecVersion1_4) then Some SpecVersion1_4
  else if str_eqb v (SpecVersion_String SpecVersion1_5) then Some SpecVersion1_5
  else if str_eqb v (SpecVersion_String SpecVersion1_6) then Some SpecVersion1_6
  else if str_eqb v (SpecVersion_String SpecVersion1_7) then Some SpecVersion1_7
  else None.

(** /repo/cyclonedx_json.go:452-461 *)
Definition jsonSchemas : list (SpecVersion * string) :=
  [ (SpecVersion1_0, "");
    (SpecVersion1_1, "");
    (SpecVersion1_2, "http://cyclonedx.org/schema/bom-1.2.schema.json");
    (SpecVersion1_3, "http://cyclonedx.org/schema/bom-1.3.schema.json");
    (SpecVersion1_4, "http://cyclonedx.org/schema/bom-1.4.schema.json");
    (SpecVersion1_5, "http://cyclonedx.org/schema/bom-1.5.schema.json");
    (SpecVersion1_6, "http://cyclonedx.org/schema/bom-1.6.schema.json");
    (SpecVersion1_7, "http://cyclonedx.org/schema/bom-1.7.schema.json") ].

(** /repo/cyclonedx_xml.go:1260-1269 *)
Definition xmlNamespaces : list (SpecVersion * string) :=
  [ (SpecVersion1_0, "http://cyclonedx.org/schema/bom/1.0");
    (SpecVersion1_1, "http://cyclonedx.org/schema/bom/1.1");
    (SpecVersion1_2, "http://cyclonedx.org/schema/bom/1.2");
    (SpecVersion1_3, "http://cyclonedx.org/schema/bom/1.3");
    (SpecVersion1_4, "http://cyclonedx.org/schema/bom/1.4");
    (SpecVersion1_5, "http://cyclonedx.org/schema/bom/1.5");
    (SpecVersion1_6, "http://cyclonedx.org/schema/bom/1.6");
    (SpecVersion1_7, "http://cyclonedx.org/schema/bom/1.7") ].

(** [m[k]] on a Go map with string values: the zero value if absent. *)
Fixpoint map_get (m : list (SpecVersion * string)) (k : SpecVersion) : string :=
  match m with
  | [] => ""
  | (k', v) :: m' => if (k' =? k)%Z then v else map_get m' k
  end.

(** /repo/decode.go:60-65: the loop over a map. [entries] is the order in which
    Go's runtime happens to enumerate the map. *)
Fixpoint match_namespace (entries : list (SpecVersion * string)) (xmlns : string) (old : SpecVersion) : SpecVersion :=
  match entries with
  | [] => old
  | (sv, ns) :: rest => if str_eqb ns xmlns then sv else match_namespace rest xmlns old
  end.

(** /repo/cyclonedx.go:133-141 *)
Definition NewBOM : BOM :=
  set_BOM_JSONSchema (map_get jsonSchemas SpecVersion1_7)
  (set_BOM_XMLNS (map_get xmlNamespaces SpecVersion1_7)
  (set_BOM_BOMFormat BOMFormat_const
  (set_BOM_SpecVersion SpecVersion1_7
  (set_BOM_Version 1%Z zero_BOM)))).
