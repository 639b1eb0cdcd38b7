(** Documents that say only what a schema knows: the specification for C45. The schemas are
    those of SchemaSpec.v and Schemas.v. *)
From Verif Require Import Base Univ Wt LinkModel Numbers GobModel JsonModel SchemaSpec.
Local Open Scope string_scope.

(** [shaped defs s j]: every member of every object in [j] is one that the schema [s] defines
    at that place, and every value is null or of the type that the schema asks for. Which
    members are required, which words an enumeration has and how long a string must be does
    not matter: that is up to whoever fills in the BOM. *)
Inductive shaped (defs : schemas) : schema -> json -> Prop :=
| sh_null s : shaped defs s JNull
| sh_text x : shaped defs Text (JStr x)
| sh_filled x : shaped defs Filled (JStr x)
| sh_words l x : shaped defs (Words l) (JStr x)
| sh_whole z : shaped defs Whole (JNum (format_int z))
| sh_number lit : json_number lit = true -> shaped defs Number (JNum lit)
| sh_truth b : shaped defs Truth (JBool b)
| sh_list s l : (forall j, In j l -> shaped defs s j) -> shaped defs (ListOf s) (JArr l)
| sh_object ms required l : (forall k j, In (k, j) l -> exists s, assoc k ms = Some s /\ shaped defs s j) -> shaped defs (Object ms required) (JObj l)
| sh_ref n s j : assoc n defs = Some s -> shaped defs s j -> shaped defs (Ref n) j
| sh_one l s j : In s l -> shaped defs s j -> shaped defs (OneOf l) j
| sh_any j : shaped defs Anything j
(* Keeping to one of several alternatives is up to whoever fills in the BOM, too. *)
| sh_members l ms : (forall k j, In (k, j) ms -> exists s, In s l /\ shaped defs s (JObj [(k, j)])) -> ms <> [] -> shaped defs (OneOf l) (JObj ms)
| sh_items l js : (forall j, In j js -> exists s, In s l /\ shaped defs s (JArr [j])) -> js <> [] -> shaped defs (OneOf l) (JArr js).

(** ** Where null is written *)
Fixpoint nulls (j : json) : bool :=
  match j with
  | JNull => true
  | JArr l => existsb nulls l
  | JObj ms => existsb (fun m => nulls (snd m)) ms
  | _ => false
  end.

(** Values in which something is missing that the encoder does not leave out: a pointer to a
    nil list, a nil pointer or list in a field without omitempty, a choice of identities with
    neither alternative *)
Definition is_nil (v : val) : bool := match v with VPtr None | VSlice None => true | _ => false end.
Definition is_set (v : val) : bool := match v with VPtr (Some _) => true | _ => false end.
Definition always_written (f : field) : bool := match json_info f with Some (_, false) => true | _ => false end.
Fixpoint hollow (t : ty) (v : val) : bool :=
  match v with
  | VPtr (Some x) => (is_nil x || hollow (elem_ty t) x)%bool
  | VSlice (Some l) => existsb (fun x => is_nil x || hollow (elem_ty t) x)%bool l
  | VStruct vs =>
      (match t with TRef n => (String.eqb n "EvidenceIdentityChoice" && negb (existsb is_set vs))%bool | _ => false end
       || (fix fields (vs : list val) (fs : list field) {struct vs} : bool :=
             match vs, fs with x :: vs', f :: fs' => ((always_written f && is_nil x) || hollow (f_ty f) x || fields vs' fs')%bool | _, _ => false end) vs (fields_of t))%bool
  | _ => false
  end.
