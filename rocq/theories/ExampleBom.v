(** A concrete BOM used to show that hypotheses are satisfiable. *)
From Verif Require Import Base Types Consts Version.
Local Open Scope string_scope.

Definition list_of {A} (l : list A) : ptr (slice A) := Some (Some l).

Definition ex_license : LicenseChoice :=
  set_LicenseChoice_License (Some (set_License_BOMRef "lic" (set_License_Text (Some zero_AttachedText) (set_License_ID "MIT" zero_License)))) zero_LicenseChoice.
Definition ex_expression : LicenseChoice :=
  set_LicenseChoice_Expression "MIT OR Apache-2.0" zero_LicenseChoice.

Definition ex_leaf (name : string) : Component :=
  set_Component_Name name (set_Component_Type "library" (set_Component_Tags (list_of ["t"])
    (set_Component_Hashes (list_of [mkHash "MD5" "m"; mkHash "BLAKE3" "b"; mkHash "SHA-1" "s"])
      (set_Component_Licenses (list_of [ex_license; ex_expression]) zero_Component)))).

Definition ex_inner : Component :=
  set_Component_Type "machine-learning-model" (set_Component_Scope "excluded"
    (set_Component_BOMRef "inner" (set_Component_Components (list_of [ex_leaf "deep"]) (ex_leaf "inner")))).

Definition ex_component : Component :=
  set_Component_Pedigree (Some (set_Pedigree_Ancestors (list_of [ex_inner]) zero_Pedigree))
    (set_Component_Components (list_of [ex_leaf "a"; ex_inner])
      (set_Component_ExternalReferences (list_of [set_ExternalReference_Type "log" zero_ExternalReference; set_ExternalReference_Type "vcs" zero_ExternalReference])
        (ex_leaf "outer"))).

Definition ex_service (name : string) (l : list Service) : Service :=
  set_Service_Name name (set_Service_TrustZone "zone" (set_Service_Services (list_of l)
    (set_Service_Provider (Some (set_OrganizationalEntity_Name "acme" (set_OrganizationalEntity_Address (Some zero_PostalAddress) zero_OrganizationalEntity)))
      zero_Service))).

Definition ex_tools : ToolsChoice :=
  mkToolsChoice (list_of [set_Tool_Name "t1" zero_Tool]) (list_of [ex_leaf "t2"]) (list_of [ex_service "t3" []]).

Definition ex_metadata : Metadata :=
  set_Metadata_Component (Some ex_component) (set_Metadata_Tools (Some ex_tools)
    (set_Metadata_Licenses (list_of [ex_license]) zero_Metadata)).

Definition ex_vulnerability : Vulnerability :=
  set_Vulnerability_ID "CVE-1" (set_Vulnerability_Workaround "w"
    (set_Vulnerability_Ratings (list_of [set_VulnerabilityRating_Method "SSVC" zero_VulnerabilityRating]) zero_Vulnerability)).

Definition ex_bom : BOM :=
  set_BOM_SerialNumber "urn:uuid:3e671687-395b-41f5-a30f-a58921a69b79"
    (set_BOM_Metadata (Some ex_metadata)
      (set_BOM_Components (list_of [ex_leaf "x"; ex_component])
        (set_BOM_Services (list_of [ex_service "s" [ex_service "s1" []; ex_service "s2" []]])
          (set_BOM_Dependencies (list_of [mkDependency "a" (list_of ["b"]) (list_of ["c"])])
            (set_BOM_Compositions (list_of [set_Composition_Aggregate "incomplete_first_party_opensource_only" (set_Composition_BOMRef "c" zero_Composition)])
              (set_BOM_Vulnerabilities (list_of [ex_vulnerability])
                (set_BOM_Citations (list_of [zero_Citation]) NewBOM))))))).

(** Components within each other. *)
Definition leaf : Component := set_Component_Name "c" (set_Component_Type "library" zero_Component).
Fixpoint nest (n : nat) : Component := match n with O => leaf | S m => set_Component_Components (list_of [nest m]) leaf end.
Definition b_nest (n : nat) : BOM := set_BOM_Components (list_of [nest n]) NewBOM.
