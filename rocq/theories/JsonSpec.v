(** When nothing is lost by writing a value as JSON and reading it again. *)
From Verif Require Import Base Types Univ TypeTable Wt Utf8 JsonModel JsonBack.
Local Open Scope string_scope.

Definition nil_ptr (v : val) : Prop := v = VPtr None.
Definition points (v : val) : Prop := exists x, v = VPtr (Some x).

(** The fields of a struct: those that are not written must be zero, the others lossless.
    [ls] says of each field whether it is lossless. *)
Fixpoint fields_lossless (fs : list field) (vs : list val) (ls : list Prop) : Prop :=
  match fs, vs, ls with
  | f :: fs', v :: vs', l :: ls' =>
      (match json_info f with
       | None => v = zero_of (f_ty f)
       | Some (_, omit) => if (omit && empty_value v)%bool then v = zero_of (f_ty f) else l
       end) /\ fields_lossless fs' vs' ls'
  | [], [], [] => True
  | _, _, _ => False
  end.

(** The choices: exactly which combinations of alternatives survive. *)
Definition choice_lossless (h : hook) (fs : list field) (vs : list val) (ls : list Prop) : Prop :=
  match h, vs, ls with
  | HEnvironmentVariable, [prop; value], [lprop; lvalue] =>
      (nil_ptr prop /\ lvalue) \/
      ((exists p, prop = VPtr (Some p) /\ zero_value p = false) /\ lprop /\ value = VStr "")
  | HDataset, [ref; data], [lref; ldata] =>
      (ref <> VStr "" /\ lref /\ nil_ptr data) \/
      (ref = VStr "" /\ (nil_ptr data \/ (exists d, data = VPtr (Some d) /\ zero_value d = false) /\ ldata))
  | HTools, [tools; comps; servs], [ltools; lcomps; lservs] =>
      (points tools /\ ltools /\ nil_ptr comps /\ nil_ptr servs) \/ (nil_ptr tools /\ lcomps /\ lservs)
  | HIdentity, [one; many], [lone; lmany] =>
      (points one /\ lone /\ nil_ptr many) \/ (nil_ptr one /\ points many /\ lmany)
  | HCertState, [a; b], [la; lb] | HCertExtension, [a; b], [la; lb] =>
      ((exists s x, a = VPtr (Some (VStruct [VStr s; x])) /\ s <> "") /\ la /\ nil_ptr b) \/
      (nil_ptr a /\ points b /\ lb)
  | HAsserter, [org; ind; ref], [lorg; lind; lref] =>
      (lorg /\ nil_ptr ind /\ nil_ptr ref) \/ (nil_ptr org /\ lind /\ nil_ptr ref) \/ (nil_ptr org /\ nil_ptr ind /\ lref)
  | HIKEv2, ref :: rest, lref :: _ =>
      (ref <> VStr "" /\ lref /\ rest = zeros_of (tl fs)) \/ (ref = VStr "" /\ fields_lossless fs vs ls)
  | HPatent, [patent; family], [lpatent; lfamily] =>
      (points patent /\ lpatent /\ nil_ptr family) \/
      (nil_ptr patent /\ (exists r s p m e, family = VPtr (Some (VStruct [r; VStr s; p; m; e])) /\ s <> "") /\ lfamily)
  | HNone, _, _ | HLicense, _, _ => fields_lossless fs vs ls
  | _, _, _ => False
  end.

(** Nothing in [v], of type [t], is lost: strings are valid UTF-8, no pointer leads to
    something that is written as null, fields that are not written are zero, and choices
    are as above. *)
Fixpoint lossless (t : ty) (v : val) {struct v} : Prop :=
  match v with
  | VStr s => utf8 s
  | VPtr (Some x) => nulls (elem_ty t) x = false /\ lossless (elem_ty t) x
  | VSlice (Some l) => list_all (lossless (elem_ty t)) l
  | VStruct vs =>
      choice_lossless (marshal_hook t) (fields_of t) vs
        ((fix each (vs : list val) (fs : list field) {struct vs} : list Prop :=
            match vs, fs with
            | x :: vs', f :: fs' => lossless (f_ty f) x :: each vs' fs'
            | _, _ => []
            end) vs (fields_of t))
  | _ => True
  end.

(** ** What makes encoding fail *)

(** The parts of a value that its JSON is made of, with their types: a field that is left
    out is not a part, and of a choice only the alternatives that are written. *)
Fixpoint plain_parts (fs : list field) (vs : list val) : list (ty * val) :=
  match fs, vs with
  | f :: fs', v :: vs' =>
      match json_info f with
      | Some (_, omit) => if (omit && empty_value v)%bool then plain_parts fs' vs' else (f_ty f, v) :: plain_parts fs' vs'
      | None => plain_parts fs' vs'
      end
  | _, _ => []
  end.
Definition choice_parts (h : hook) (fs : list field) (vs : list val) : list (ty * val) :=
  let ts := map f_ty fs in
  match h, vs, ts with
  | HEnvironmentVariable, [prop; value], [tprop; tvalue] =>
      if match prop with VPtr (Some p) => negb (zero_value p) | _ => false end then [(tprop, prop)]
      else if nonempty value then [(tvalue, value)] else []
  | HDataset, [ref; data], [tref; tdata] =>
      if nonempty ref then [(tref, ref)] else if nonnil data then [(tdata, data)] else []
  | HTools, [tools; comps; servs], [ttools; tcomps; tservs] =>
      if nonnil tools then [(ttools, tools)]
      else ((if nonnil comps then [(tcomps, comps)] else []) ++ (if nonnil servs then [(tservs, servs)] else []))%list
  | HIdentity, [a; b], [ta; tb] | HCertState, [a; b], [ta; tb] | HCertExtension, [a; b], [ta; tb] | HPatent, [a; b], [ta; tb] =>
      if nonnil a then [(ta, a)] else if nonnil b then [(tb, b)] else []
  | HAsserter, [org; ind; ref], [torg; tind; tref] =>
      if nonnil org then [(torg, org)] else if nonnil ind then [(tind, ind)] else if nonnil ref then [(tref, ref)] else []
  | HIKEv2, ref :: _, tref :: _ => if nonempty ref then [(tref, ref)] else plain_parts fs vs
  | HNone, _, _ | HLicense, _, _ => plain_parts fs vs
  | _, _, _ => []
  end.
Definition parts_of (t : ty) (v : val) : list (ty * val) :=
  match v with
  | VPtr (Some x) => [(elem_ty t, x)]
  | VSlice (Some l) => map (fun x => (elem_ty t, x)) l
  | VStruct vs => choice_parts (marshal_hook t) (fields_of t) vs
  | _ => []
  end.

(** [written t v t' v']: the JSON of [v] contains the JSON of [v']. *)
Inductive written (t : ty) (v : val) : ty -> val -> Prop :=
| written_here : written t v t v
| written_part t1 v1 t2 v2 : In (t1, v1) (parts_of t v) -> written t1 v1 t2 v2 -> written t v t2 v2.

(** A value that cannot be encoded. *)
Inductive offence : ty -> val -> Prop :=
| off_inf t neg : offence t (VFlt (FInf neg))
| off_nan t : offence t (VFlt FNaN)
| off_tools_both tools comps servs : points tools -> points comps \/ points servs ->
    offence (TRef "ToolsChoice") (VStruct [tools; comps; servs])
| off_tools_none : offence (TRef "ToolsChoice") (VStruct [VPtr None; VPtr None; VPtr None])
| off_identity a b : points a -> points b -> offence (TRef "EvidenceIdentityChoice") (VStruct [a; b])
| off_state a b : points a -> points b -> offence (TRef "CertificateState") (VStruct [a; b])
| off_extension a b : points a -> points b -> offence (TRef "CertificateExtension") (VStruct [a; b])
| off_license_both ref id name rest : id <> "" -> name <> "" ->
    offence (TRef "License") (VStruct (ref :: VStr id :: VStr name :: rest))
| off_license_none ref rest : offence (TRef "License") (VStruct (ref :: VStr "" :: VStr "" :: rest)).

(** ** Documents *)

(** Every string in the document is valid UTF-8 (package json makes it so when it parses
    a text). *)
Fixpoint doc_utf8 (j : json) : Prop :=
  match j with
  | JStr s => utf8 s
  | JArr l => list_all doc_utf8 l
  | JObj ms => list_all (fun m => doc_utf8 (snd m)) ms
  | _ => True
  end.

(** No object has two keys that package json identifies (it ignores case). *)
Fixpoint doc_unique (j : json) : Prop :=
  match j with
  | JArr l => list_all doc_unique l
  | JObj ms => NoDup (map (fun m => fold_name (fst m)) ms) /\ list_all (fun m => doc_unique (snd m)) ms
  | _ => True
  end.

(** The parts of a value, with their types, and [inside t v t' v']: [v'] is [v] or
    occurs in it, at any depth. *)
Definition all_parts (t : ty) (v : val) : list (ty * val) :=
  match v with
  | VPtr (Some x) => [(elem_ty t, x)]
  | VSlice (Some l) => map (fun x => (elem_ty t, x)) l
  | VStruct vs => combine (map f_ty (fields_of t)) vs
  | _ => []
  end.
Inductive inside (t : ty) (v : val) : ty -> val -> Prop :=
| inside_here : inside t v t v
| inside_part t1 v1 t2 v2 : In (t1, v1) (all_parts t v) -> inside t1 v1 t2 v2 -> inside t v t2 v2.

(** A BOM without what JSON has no place for: the XML element name and namespace. *)
Definition json_view (b : BOM) : BOM := set_BOM_XMLName (mkXMLName "" "") (set_BOM_XMLNS "" b).
