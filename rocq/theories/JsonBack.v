(** What comes back when a value is written as JSON and read again, as a function of the
    value. JsonProofs.v proves that the codec does exactly this; JsonSpec.v says when
    nothing changes. *)
From Verif Require Import Base Types Univ TypeTable Wt Consts Version Numbers Utf8 JsonModel.
Local Open Scope string_scope.

(** The values that a Go program can hold and JSON can express: integers fit 64 bits,
    floats are finite, a specification version is one of the eight known ones. *)
Fixpoint sane (t : ty) (v : val) {struct v} : Prop :=
  match v with
  | VInt z => match marshal_hook t with HSpecVersion => parse_spec_version (SpecVersion_String z) = Some z | _ => is_int z = true end
  | VFlt f => float_ok (match t with TF32 => true | _ => false end) f = true
  | VPtr (Some x) => sane (elem_ty t) x
  | VSlice (Some l) => list_all (sane (elem_ty t)) l
  | VStruct vs => zip_all (fun f x => sane (f_ty f) x) vs (fields_of t)
  | _ => True
  end.

(** Structs and lists on the longest path into the value. *)
Fixpoint nesting (v : val) : N :=
  match v with
  | VPtr (Some x) => nesting x
  | VSlice (Some l) => N.succ (fold_right N.max 0%N (map nesting l))
  | VStruct l => N.succ (fold_right N.max 0%N (map nesting l))
  | _ => 0%N
  end.

(** The value is written as [null]. *)
Fixpoint nulls (t : ty) (v : val) {struct v} : bool :=
  match v with
  | VPtr None => true
  | VPtr (Some x) => nulls (elem_ty t) x
  | VSlice None => true
  | VStruct vs =>
      match marshal_hook t, vs with
      | HTools, [VPtr (Some (VSlice None)); _; _] => true
      | HIdentity, [VPtr None; VPtr None] => true
      | HIdentity, [VPtr None; VPtr (Some (VSlice None))] => true
      | _, _ => false
      end
  | _ => false
  end.

Definition zeros_of (fs : list field) : list val := map (fun f => zero_of (f_ty f)) fs.

(** Fields that are not written come back as zero. [bs] are the fields as they would
    come back one by one. *)
Fixpoint back_fields (fs : list field) (vs bs : list val) : list val :=
  match fs, vs, bs with
  | f :: fs', v :: vs', b :: bs' =>
      (match json_info f with
       | None => zero_of (f_ty f)
       | Some (_, omit) => if (omit && empty_value v)%bool then zero_of (f_ty f) else b
       end) :: back_fields fs' vs' bs'
  | _, _, _ => []
  end.

(** The choices. *)
Definition back_choice (h : hook) (fs : list field) (vs bs : list val) : list val :=
  match h, vs, bs with
  | HEnvironmentVariable, [prop; value], [bprop; bvalue] =>
      if match prop with VPtr (Some p) => negb (zero_value p) | _ => false end then [bprop; VStr ""] else [VPtr None; bvalue]
  | HDataset, [ref; data], [bref; bdata] =>
      if nonempty ref then [bref; VPtr None]
      else [VStr ""; match bdata with VPtr (Some d) => if zero_value d then VPtr None else bdata | _ => bdata end]
  | HIdentity, _, [VPtr None; VPtr None] => [some_ptr (zero_of (TRef "EvidenceIdentity")); VPtr None]
  | HCertState, [VPtr (Some _); _], [VPtr (Some (VStruct [VStr state; reason])); _] =>
      if String.eqb state "" then [VPtr None; some_ptr (VStruct [VStr ""; VStr ""; reason])]
      else [some_ptr (VStruct [VStr state; reason]); VPtr None]
  | HCertState, [VPtr None; VPtr None], _ => [VPtr None; some_ptr (zero_of (TRef "CustomCertificateState"))]
  | HCertExtension, [VPtr (Some _); _], [VPtr (Some (VStruct [VStr name; value])); _] =>
      if String.eqb name "" then [VPtr None; some_ptr (zero_of (TRef "CustomCertificateExtension"))]
      else [some_ptr (VStruct [VStr name; value]); VPtr None]
  | HCertExtension, [VPtr None; VPtr None], _ => [VPtr None; some_ptr (zero_of (TRef "CustomCertificateExtension"))]
  | HAsserter, [org; ind; _], [borg; bind; bref] =>
      if nonnil org then [borg; VPtr None; VPtr None]
      else if nonnil ind then [VPtr None; bind; VPtr None]
      else [VPtr None; VPtr None; bref]
  | HIKEv2, ref :: _, bref :: _ =>
      if nonempty ref then bref :: zeros_of (tl fs) else back_fields fs vs bs
  | HPatent, [VPtr (Some _); _], [bpatent; _] => [bpatent; VPtr None]
  | HPatent, [VPtr None; VPtr (Some _)], [_; VPtr (Some (VStruct [ref; VStr id; prio; members; ext]))] =>
      if String.eqb id ""
      then [some_ptr (VStruct [ref; VStr ""; VStr ""; VStr ""; prio; VStr ""; VStr ""; VStr ""; VStr ""; VStr ""; VStr ""; VStr ""; VPtr None; ext]); VPtr None]
      else [VPtr None; some_ptr (VStruct [ref; VStr id; prio; members; ext])]
  | HPatent, _, _ => [some_ptr (zero_of (TRef "Patent")); VPtr None]
  | HNone, _, _ | HLicense, _, _ => back_fields fs vs bs
  | _, _, _ => bs
  end.

Fixpoint jback (t : ty) (v : val) {struct v} : val :=
  match v with
  | VStr s => VStr (to_utf8 s)
  | VPtr (Some x) => if nulls (elem_ty t) x then VPtr None else VPtr (Some (jback (elem_ty t) x))
  | VSlice (Some l) => VSlice (Some (map (jback (elem_ty t)) l))
  | VStruct vs =>
      let fs := fields_of t in
      VStruct (back_choice (marshal_hook t) fs vs
                 ((fix each (vs : list val) (fs : list field) {struct vs} : list val :=
                     match vs, fs with
                     | x :: vs', f :: fs' => jback (f_ty f) x :: each vs' fs'
                     | _, _ => []
                     end) vs fs))
  | _ => v
  end.
