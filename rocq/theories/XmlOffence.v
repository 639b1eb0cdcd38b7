(** Which values the XML encoder refuses, and where it looks for them. Used by C24. *)
From Verif Require Import Base Types Univ TypeTable Wt Reify JsonModel XmlModel.
Local Open Scope string_scope.

Definition is_some (v : val) : Prop := exists x, v = VPtr (Some x).

(** A value that cannot be encoded: both alternatives of a choice are set, or a license
    has neither id nor name. *)
Inductive xoffence : ty -> val -> Prop :=
| xo_tools tools comps servs : is_some tools -> is_some comps \/ is_some servs ->
    xoffence (TRef "ToolsChoice") (VStruct [tools; comps; servs])
| xo_state a b : is_some a -> is_some b -> xoffence (TRef "CertificateState") (VStruct [a; b])
| xo_extension a b : is_some a -> is_some b -> xoffence (TRef "CertificateExtension") (VStruct [a; b])
| xo_asserter org ind ref : is_some org -> is_some ind -> xoffence (TRef "AsserterChoice") (VStruct [org; ind; ref])
| xo_license_both ref id name rest : id <> "" -> name <> "" ->
    xoffence (TRef "License") (VStruct (ref :: VStr id :: VStr name :: rest))
| xo_license_none ref rest : xoffence (TRef "License") (VStruct (ref :: VStr "" :: VStr "" :: rest))
| xo_choice l license expression rest : In (VStruct (license :: VStr expression :: rest)) l -> is_some license -> expression <> "" ->
    xoffence (TRef "Licenses") (VSlice (Some l))
| xo_environment l prop value : In (VStruct [prop; VStr value]) l -> is_some prop -> value <> "" ->
    xoffence (TRef "EnvironmentVariables") (VSlice (Some l)).

(** The parts that are written as elements. *)
Fixpoint field_parts (fs : list field) (vs : list val) : list (ty * val) :=
  match fs, vs with
  | f :: fs', v :: vs' =>
      match xml_info f with
      | Some (mkX XElement _ _ _) => (f_ty f, v) :: field_parts fs' vs'
      | _ => field_parts fs' vs'
      end
  | _, _ => []
  end.
Definition environment_parts (v : val) : list (ty * val) :=
  match v with VStruct [prop; _] => [(TPtr (TRef "Property"), prop)] | _ => [] end.
Definition detail_parts (v : val) : list (ty * val) :=
  match v with VStruct [_; _; text; _] => [(TPtr (TRef "AttachedText"), text)] | _ => [] end.
Definition license_choice_parts (v : val) : list (ty * val) :=
  match v with
  | VStruct (VPtr (Some l) :: _) => [(TRef "License", l)]
  | VStruct (_ :: expression :: VPtr (Some (VSlice (Some l))) :: _) => if nonempty expression then flat_map detail_parts l else []
  | _ => []
  end.
(** Of a patent choice with both alternatives only the patent is written. *)
Definition patent_parts (v : val) : list (ty * val) :=
  match v with
  | VStruct [VPtr (Some p); _] => [(TRef "Patent", p)]
  | VStruct [_; family] => [(TPtr (TRef "PatentFamily"), family)]
  | _ => []
  end.
(** Likewise of identities: with both, only the list is written. *)
Definition identity_parts (v : val) : list (ty * val) :=
  match v with
  | VPtr (Some (VStruct [one; many])) =>
      if nonnil many then [(TPtr (TSlice (TRef "EvidenceIdentity")), many)] else [(TPtr (TRef "EvidenceIdentity"), one)]
  | _ => []
  end.
Definition list_in (v : val) : list val := match v with VPtr (Some (VSlice (Some l))) => l | _ => [] end.

Definition method_parts (m : method) (fs : list field) (v : val) : list (ty * val) :=
  match m, v with
  | MNone, VStruct vs | MLicense, VStruct vs => field_parts fs vs
  | MEnvironment, VSlice (Some l) => flat_map environment_parts l
  | MLicenses, VSlice (Some l) => flat_map license_choice_parts l
  | MDataset, VStruct [ref; data] => if nonempty ref then [] else [(TPtr (TRef "ComponentData"), data)]
  | MAsserter, VStruct [org; ind; _] =>
      if nonnil org then [(TPtr (TRef "OrganizationalEntity"), org)] else [(TPtr (TRef "OrganizationalContact"), ind)]
  | MIKEv2, VStruct (ref :: rest) => if nonempty ref then [] else field_parts fs (ref :: rest)
  | MTools, VStruct [tools; comps; servs] =>
      if nonnil tools then [(TPtr (TSlice (TRef "Tool")), tools)]
      else [(TPtr (TSlice (TRef "Component")), comps); (TPtr (TSlice (TRef "Service")), servs)]
  | MEvidence, VStruct [identity; occurrences; callstack; licenses; copyright] =>
      (identity_parts identity ++
       [(TPtr (TSlice (TRef "EvidenceOccurrence")), occurrences); (TPtr (TRef "Callstack"), callstack);
        (TPtr (TRef "Licenses"), licenses); (TPtr (TSlice (TRef "Copyright")), copyright)])%list
  | MData, VStruct [_; _; _; _; governance; _; _] => [(TPtr (TRef "DataGovernance"), governance)]
  | MDefinitions, VStruct [standards; patents] =>
      (map (fun x => (TRef "StandardDefinition", x)) (list_in standards) ++ flat_map patent_parts (list_in patents))%list
  | _, _ => []
  end.
Definition xparts (t : ty) (v : val) : list (ty * val) :=
  match v with
  | VPtr None => []
  | VPtr (Some x) => [(elem_ty t, x)]
  | VSlice (Some l) => match marshaler t with MNone => map (fun x => (elem_ty t, x)) l | m => method_parts m [] v end
  | _ => method_parts (marshaler t) (fields_of t) v
  end.
(** [xwritten t v t' v']: the XML of [v] contains that of [v']. *)
Inductive xwritten (t : ty) (v : val) : ty -> val -> Prop :=
| xwritten_here : xwritten t v t v
| xwritten_part t1 v1 t2 v2 : In (t1, v1) (xparts t v) -> xwritten t1 v1 t2 v2 -> xwritten t v t2 v2.
