(** Facts about the xml tags, by computation. *)
From Verif Require Import Base Types Univ TypeTable Wt ReifyBase Consts JsonModel JsonBack JsonProofs XmlModel XmlBack.
Local Open Scope string_scope.

(** Types of fields: a type that is neither pointer nor slice, a pointer to one, a slice
    of them, a pointer to such a slice. *)
Definition is_bom (t : ty) : bool := match t with TRef n => String.eqb n "BOM" | _ => false end.
Definition base_ty (t : ty) : bool :=
  negb (is_bom t) &&
  match t with
  | TPtr _ | TSlice _ => false
  | _ => match kind_of t with
         | KPtr _ | KBad => false
         | KSlice _ => match marshaler t with MEnvironment | MLicenses => true | _ => false end
         | KStruct _ => match marshaler t with MRef | MSpecVersion | MEnvironment | MLicenses => false | _ => true end
         | KStr => match marshaler t with MNone | MRef => true | _ => false end
         | KInt => match marshaler t with MNone | MSpecVersion => true | _ => false end
         | _ => match marshaler t with MNone => true | _ => false end
         end
  end.
Definition field_ty (t : ty) : bool :=
  match t with
  | TPtr (TSlice b) => base_ty b
  | TPtr b => base_ty b
  | TSlice b => base_ty b
  | b => base_ty b
  end.
(** Attributes are of simple types, character data are strings. *)
Definition simple_ty (t : ty) : bool :=
  match kind_of t with KStr | KInt | KBool | KFlt => true | KPtr t' => match kind_of t' with KStr | KInt | KBool | KFlt => true | _ => false end | _ => false end.
Definition is_place (p : option place) (q : option place) : bool :=
  match p, q with
  | None, None => true
  | Some (Here i), Some (Here j) => Nat.eqb i j
  | Some (Inside a), Some (Inside b) => String.eqb a b
  | _, _ => false
  end.

(** A struct type may be written with the fields [es] and read with the fields [ds]: what
    field number j of [es] writes is read by field number [nth j m] of [ds] and by no
    other. A field that is not written under its own name is read by none. *)
Definition is_attr (n : string) (g : field) : bool :=
  match xml_info g with Some (mkX XAttribute _ m _) => String.eqb m n | _ => false end.
Definition is_element (g : field) : bool := match xml_info g with Some (mkX XElement _ _ _) => true | _ => false end.
Definition is_chardata (g : field) : bool := match xml_info g with Some (mkX XCharData _ _ _) => true | _ => false end.
Definition plain_marshaler (t : ty) : bool := match marshaler t with MNone | MRef => true | _ => false end.
Definition right_name (f : field) : bool :=
  match xml_info f with Some (mkX XElement _ n _) => String.eqb (element_name (f_ty f) n) n | _ => false end.
Fixpoint only_at (p : field -> bool) (i : nat) (fs : list field) : bool :=
  match fs, i with
  | [], _ => false
  | g :: fs', O => p g && negb (existsb p fs')
  | g :: fs', S i' => negb (p g) && only_at p i' fs'
  end.
Definition same_ty (ds : list field) (i : nat) (t : ty) : bool :=
  match nth_error ds i with Some g => ty_eqb (f_ty g) t | None => false end.
Definition pair_fact (ds : list field) (i : nat) (f : field) : bool :=
  field_ty (f_ty f) &&
  match xml_info f with
  | None | Some (mkX XCharData _ _ _) => true
  | Some (mkX XAttribute _ n _) =>
      simple_ty (f_ty f) && plain_marshaler (f_ty f) && plain_marshaler (elem_ty (f_ty f)) && same_ty ds i (f_ty f) && only_at (is_attr n) i ds
  | Some (mkX XElement parents n omit) =>
      let n' := element_name (f_ty f) n in
      let target := if String.eqb n' n then Some (Here i) else None in
      (match parents with
       | [] => is_place (find_place None n' 0 ds) target
       | [p] => is_place (find_place None p 0 ds) (Some (Inside p)) && is_place (find_place (Some p) n' 0 ds) target
       | _ => false
       end) && same_ty ds i (f_ty f) && match nth_error ds i with Some g => is_element g | None => false end
  end.
Fixpoint pair_facts (ds es : list field) (m : list nat) : bool :=
  match es, m with
  | [], [] => true
  | f :: es', i :: m' => pair_fact ds i f && negb (existsb (Nat.eqb i) m') && pair_facts ds es' m'
  | _, _ => false
  end.
(** A struct with character data has no elements, and one such field. *)
Definition chardata_facts (fs : list field) : bool :=
  negb (existsb is_chardata fs) ||
  (negb (existsb is_element fs) && existsb (fun i => only_at is_chardata i fs) (seq 0 (length fs))
   && forallb (fun f => negb (is_chardata f) || match f_ty f with TStr => true | _ => false end) fs).
Definition xml_facts (fs : list field) : bool := pair_facts fs fs (seq 0 (length fs)) && chardata_facts fs.

Lemma defs_xml : forallb (fun d => match snd d with DStruct fs => String.eqb (fst d) "DataClassification" || xml_facts fs | DAlias _ => true end) defs = true.
Proof. vm_compute. reflexivity. Qed.
Lemma defs_names : forallb (fun d => match snd d with
                                     | DStruct fs => String.eqb (fst d) "BOM" ||
                                                     match xml_name fs with None => negb (existsb (fun f => String.eqb (f_name f) "XMLName") fs) | _ => false end
                                     | DAlias _ => true
                                     end) defs = true.
Proof. vm_compute. reflexivity. Qed.
