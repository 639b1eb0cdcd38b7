(** Where a JSON document has metadata, components, services and so on, and which members the
    schema of a version defines there: the specification for C49. Nothing here refers to the
    model but the documents themselves. *)
From Verif Require Import Base Wt JsonModel SchemaSpec.
Local Open Scope string_scope.

(** The object [j] has a member [k], which is [x]. *)
Definition sub (j : json) (k : string) (x : json) : Prop := exists ms, j = JObj ms /\ In (k, x) ms.
(** The object [j] has a member [k], which is a list with the item [x]. *)
Definition item (j : json) (k : string) (x : json) : Prop := exists l, sub j k (JArr l) /\ In x l.

(** [site doc n x]: [x] is a place of the document [doc] that the definition [n] of the schemas
    is for. Components sit in the document, in its metadata, in components and in the pedigrees
    of components; services in the document and in services; to any depth. (The schemas have more places, such as
    the components of a formula: these are not covered here.) *)
Inductive site (doc : json) : string -> json -> Prop :=
| s_document : site doc "" doc
| s_metadata x : sub doc "metadata" x -> site doc "metadata" x
| s_component x : item doc "components" x -> site doc "component" x
| s_described m x : site doc "metadata" m -> sub m "component" x -> site doc "component" x
| s_nested c x : site doc "component" c -> item c "components" x -> site doc "component" x
| s_pedigree c p k x : site doc "component" c -> sub c "pedigree" p -> In k ["ancestors"; "descendants"; "variants"] -> item p k x -> site doc "component" x
| s_service x : item doc "services" x -> site doc "service" x
| s_inner s x : site doc "service" s -> item s "services" x -> site doc "service" x
| s_composition x : item doc "compositions" x -> site doc "compositions" x
| s_vulnerability x : item doc "vulnerabilities" x -> site doc "vulnerability" x
| s_evidence c x : site doc "component" c -> sub c "evidence" x -> site doc "componentEvidence" x
| s_dependency x : item doc "dependencies" x -> site doc "dependency" x
| s_reference n y x : In n [""; "component"; "service"] -> site doc n y -> item y "externalReferences" x -> site doc "externalReference" x
| s_license n y l x : In n ["metadata"; "component"] -> site doc n y -> item y "licenses" l -> sub l "license" x -> site doc "license" x
| s_entity m k x : site doc "metadata" m -> In k ["manufacture"; "supplier"] -> sub m k x -> site doc "organizationalEntity" x
| s_provider s x : site doc "service" s -> sub s "provider" x -> site doc "organizationalEntity" x.

(** The members that the definition [n] of a schema has *)
Definition defined (d : schemas) (n : string) : list string :=
  match assoc n d with Some (Object ms _) => map fst ms | _ => [] end.
