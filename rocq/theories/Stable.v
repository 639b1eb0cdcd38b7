(** The positions at which a conversion changes a value although the target version
    defines it. [stable_T sv x]: at these positions [x] already has the form the
    converter produces. Everything else about [x] is unrestricted. *)
From Verif Require Import Base Types ConvertSpec Within.
Local Open Scope string_scope.
Local Open Scope Z_scope.

(** [s] is one of the values of the table, in whatever version. *)
Definition listed (e : enum) (s : string) : Prop := exists v, In (s, v) e.

(** A pointer to an empty list is turned into a pointer to a nil list. *)
Definition not_emptied {A} (p : option (option (list A))) : Prop := p <> Some (Some []).

(** Before 1.6 name, description, governance, source and destination are removed from
    the data classifications of a service, although 1.5 has them. *)
Definition stable_data (sv : SpecVersion) (d : DataClassification) : Prop :=
  sv < v1_6 -> DataClassification_Name d = "" /\ DataClassification_Description d = "" /\ DataClassification_Governance d = None /\
               DataClassification_Source d = None /\ DataClassification_Destination d = None.

(** Hashes with an unknown algorithm are dropped. *)
Definition stable_hashes (p : option (option (list Hash))) : Prop :=
  not_emptied p /\ all_in (fun h => listed hash_algorithms (Hash_Algorithm h)) p.

(** For 1.0, licenses without an id and a name are dropped. *)
Definition stable_licenses (sv : SpecVersion) (p : option (option (list LicenseChoice))) : Prop :=
  sv < v1_1 -> not_emptied p /\ all_in (fun c => exists l, LicenseChoice_License c = Some l /\ (License_ID l <> "" \/ License_Name l <> "")) p.

Definition stable_pedigree {C} (P : C -> Prop) (p : Pedigree_ C) : Prop :=
  all_in P (Pedigree_Ancestors p) /\ all_in P (Pedigree_Descendants p) /\ all_in P (Pedigree_Variants p).

(** Types outside the converter's list (which lacks cryptographic-asset) become
    application; "excluded" is removed for 1.1; 1.0 needs "modified", versions before 1.4
    need "version". *)
Fixpoint stable_component (sv : SpecVersion) (c : Component) {struct c} : Prop :=
  listed component_types (Component_Type c) /\
  (Component_Scope c = "" \/ listed scopes (Component_Scope c) /\ (sv < v1_2 -> Component_Scope c <> "excluded")) /\
  stable_hashes (Component_Hashes c) /\
  stable_licenses sv (Component_Licenses c) /\
  (sv < v1_4 -> Component_Version c <> "") /\
  (sv < v1_1 -> Component_Modified c <> None) /\
  inside (stable_pedigree (stable_component sv)) (Component_Pedigree c) /\
  all_in (stable_component sv) (Component_Components c).

Fixpoint stable_service (sv : SpecVersion) (s : Service) {struct s} : Prop :=
  all_in (stable_data sv) (Service_Data s) /\ all_in (stable_service sv) (Service_Services s).

Definition stable_tools (t : ToolsChoice) : Prop := all_in (fun x => stable_hashes (Tool_Hashes x)) (ToolsChoice_Tools t).

(** A rating without a method, or with an unknown one, gets the method "other". *)
Definition stable_vulnerability (v : Vulnerability) : Prop :=
  all_in (fun r => listed scoring_methods (VulnerabilityRating_Method r)) (Vulnerability_Ratings v) /\
  inside stable_tools (Vulnerability_Tools v).

Definition stable (sv : SpecVersion) (b : BOM) : Prop :=
  inside (fun m => inside stable_tools (Metadata_Tools m) /\ inside (stable_component sv) (Metadata_Component m)) (BOM_Metadata b) /\
  all_in (stable_component sv) (BOM_Components b) /\
  all_in (stable_service sv) (BOM_Services b) /\
  all_in stable_vulnerability (BOM_Vulnerabilities b) /\
  all_in (fun a => inside (fun x => sv < v1_6 -> inside (stable_service sv) (Annotator_Service x)) (Annotation_Annotator a)) (BOM_Annotations b).

(** The document with the markers of version [sv] and otherwise unchanged. *)
Definition marked (sv : SpecVersion) (b : BOM) : BOM :=
  set_BOM_SpecVersion sv (set_BOM_JSONSchema (schema_of sv) (set_BOM_XMLNS (namespace_of sv) b)).
