(** Encoding a BOM as a JSON tree and decoding a JSON tree: encoding/json driven by the
    struct tags (TypeTable.v), with the MarshalJSON and UnmarshalJSON methods of
    /repo/cyclonedx_json.go. The text of a tree is the subject of JsonText.v. *)
From Verif Require Import Base Types Univ TypeTable Wt Reify Consts LinkModel Version Numbers Utf8 GobModel.
Local Open Scope string_scope.

(** ** Trees *)

(** A JSON document. Numbers keep their text. *)
Inductive json :=
| JNull
| JBool (b : bool)
| JNum (lit : string)
| JStr (s : string)
| JArr (l : list json)
| JObj (ms : list (string * json)).

(** A document as it is written. A string remembers whether it was marshalled by a
    MarshalJSON method: json.Marshal always escapes HTML characters, whatever
    SetEscapeHTML says. It is the string of the BOM: bytes that are not valid UTF-8 are
    replaced when the text is made. *)
Inductive out :=
| ONull
| OBool (b : bool)
| ONum (lit : string)
| OStr (esc : bool) (s : string)
| OArr (l : list out)
| OObj (ms : list (string * out)).

Fixpoint erase (o : out) : json :=
  match o with
  | ONull => JNull
  | OBool b => JBool b
  | ONum lit => JNum lit
  | OStr _ s => JStr (to_utf8 s)
  | OArr l => JArr (map erase l)
  | OObj ms => JObj (map (fun m => (fst m, erase (snd m))) ms)
  end.

(** Nesting of arrays and objects. *)
Fixpoint depth (j : json) : N :=
  match j with
  | JArr l => N.succ (fold_right N.max 0%N (map depth l))
  | JObj ms => N.succ (fold_right N.max 0%N (map (fun m => depth (snd m)) ms))
  | _ => 0%N
  end.
(** encoding/json scanner.go: maxNestingDepth *)
Definition max_depth : N := 10000.
Definition too_deep (j : json) : bool := (max_depth <? depth j)%N.

Inductive jerr :=
| EBoth                    (* both alternatives of a choice are set *)
| ENeither                 (* a license without id and name *)
| EEmptyOutput             (* MarshalJSON returned no bytes *)
| EUnsupportedValue        (* NaN or infinity *)
| ETooDeep                 (* more than 10000 levels *)
| EInvalidSpecVersion      (* ErrInvalidSpecVersion *)
| EType (value : string)   (* json.UnmarshalTypeError with its field Value *)
| ESyntax.                 (* json.SyntaxError *)

(** ** Tags and hooks *)

(** encoding/json typeFields: the name of a field in JSON and its option omitempty;
    [None] if the field is not part of the JSON. *)
Definition json_info (f : field) : option (string * bool) :=
  match tag_get "json" (f_tag f) with
  | None => Some (f_name f, false)
  | Some tag =>
      if String.eqb tag "-" then None
      else match split_on "," tag with
           | n :: opts => Some (if String.eqb n "" then f_name f else n, existsb (String.eqb "omitempty") opts)
           | [] => None
           end
  end.

Inductive hook :=
| HNone | HEnvironmentVariable | HDataset | HSpecVersion | HTools | HIdentity | HLicense
| HCertState | HCertExtension | HAsserter | HIKEv2 | HPatent.

(** The types that implement json.Marshaler. *)
Definition marshal_hooks : list (string * hook) :=
  [ ("EnvironmentVariableChoice", HEnvironmentVariable); ("MLDatasetChoice", HDataset); ("SpecVersion", HSpecVersion);
    ("ToolsChoice", HTools); ("EvidenceIdentityChoice", HIdentity); ("License", HLicense);
    ("CertificateState", HCertState); ("CertificateExtension", HCertExtension); ("AsserterChoice", HAsserter);
    ("IKEv2Auth", HIKEv2); ("IKEv2Enc", HIKEv2); ("IKEv2Integ", HIKEv2); ("IKEv2Ke", HIKEv2); ("IKEv2Prf", HIKEv2);
    ("PatentChoice", HPatent) ].
Definition marshal_hook (t : ty) : hook :=
  match t with TRef n => match assoc n marshal_hooks with Some h => h | None => HNone end | _ => HNone end.
(** The types whose pointers implement json.Unmarshaler: the same without License. *)
Definition unmarshal_hook (t : ty) : hook :=
  match marshal_hook t with HLicense => HNone | h => h end.

Definition elem_ty (t : ty) : ty := match kind_of t with KPtr t' | KSlice t' => t' | _ => t end.
Definition fields_of (t : ty) : list field := match kind_of t with KStruct fs => fs | _ => [] end.

(** ** Encoding *)

(** encoding/json isEmptyValue *)
Definition empty_value (v : val) : bool :=
  match v with
  | VStr s => String.eqb s ""
  | VInt z => Z.eqb z 0
  | VBool b => negb b
  | VFlt f => float_is_zero f
  | VPtr None => true
  | VPtr (Some _) => false
  | VSlice None => true
  | VSlice (Some []) => true
  | VSlice (Some _) => false
  | VStruct _ => false
  end.
Definition nonnil (v : val) : bool := match v with VPtr (Some _) => true | _ => false end.
Definition nonempty (v : val) : bool := negb (String.eqb (str_of v) "").

(** Go's [v == T{}] for structs of strings and pointers. *)
Fixpoint zero_value (v : val) : bool :=
  match v with
  | VStr s => String.eqb s ""
  | VInt z => Z.eqb z 0
  | VBool b => negb b
  | VFlt f => float_is_zero f
  | VPtr p => match p with None => true | Some _ => false end
  | VSlice s => match s with None => true | Some _ => false end
  | VStruct vs => forallb zero_value vs
  end.

(** What encoding a part gives, under SetEscapeHTML(esc). *)
Definition encoded := bool -> result jerr out.

(** encoding/json structEncoder.encode *)
Fixpoint enc_members (esc : bool) (fs : list field) (vs : list val) (es : list encoded) : result jerr (list (string * out)) :=
  match fs, vs, es with
  | f :: fs', v :: vs', e :: es' =>
      match json_info f with
      | None => enc_members esc fs' vs' es'
      | Some (n, omit) =>
          if (omit && empty_value v)%bool then enc_members esc fs' vs' es'
          else bind (e esc) (fun o => bind (enc_members esc fs' vs' es') (fun ms => Ok ((n, o) :: ms)))
      end
  | _, _, _ => Ok []
  end.
Definition enc_struct (esc : bool) (fs : list field) (vs : list val) (es : list encoded) : result jerr out :=
  bind (enc_members esc fs vs es) (fun ms => Ok (OObj ms)).

(** The MarshalJSON methods. [vs] are the fields of the receiver, [es] their encodings. *)
Definition marshal (h : hook) (fs : list field) (vs : list val) (es : list encoded) : result jerr out :=
  match h, vs, es with
  (* /repo/cyclonedx_json.go:26-34 *)
  | HEnvironmentVariable, [prop; value], [eprop; evalue] =>
      if match prop with VPtr (Some p) => negb (zero_value p) | _ => false end then eprop true
      else if nonempty value then evalue true
      else Ok (OObj [])
  (* /repo/cyclonedx_json.go:68-76 *)
  | HDataset, [ref; data], [eref; edata] =>
      if nonempty ref then enc_struct true fields_mlDatasetChoiceRefJSON [ref] [eref]
      else if nonnil data then edata true
      else Ok (OObj [])
  (* /repo/cyclonedx_json.go:143-161 *)
  | HTools, [tools; comps; servs], [etools; ecomps; eservs] =>
      if (nonnil tools && (nonnil comps || nonnil servs))%bool then Err EBoth
      else if nonnil tools then etools true
      else if (nonnil comps || nonnil servs)%bool then enc_struct true fields_toolsChoiceJSON [comps; servs] [ecomps; eservs]
      else Err EEmptyOutput
  (* /repo/cyclonedx_json.go:192-202 *)
  | HIdentity, [one; many], [eone; emany] =>
      if (nonnil one && nonnil many)%bool then Err EBoth
      else if nonnil one then eone true
      else if nonnil many then emany true
      else Ok ONull
  (* /repo/cyclonedx_json.go:222-231 *)
  | HLicense, _ :: id :: name :: _, _ =>
      if (nonempty id && nonempty name)%bool then Err EBoth
      else if negb (nonempty id || nonempty name)%bool then Err ENeither
      else enc_struct true fs vs es
  (* /repo/cyclonedx_json.go:233-243, 268-278 *)
  | HCertState, [a; b], [ea; eb] | HCertExtension, [a; b], [ea; eb] =>
      if (nonnil a && nonnil b)%bool then Err EBoth
      else if nonnil a then ea true
      else if nonnil b then eb true
      else Ok (OObj [])
  (* /repo/cyclonedx_json.go:303-318 *)
  | HAsserter, [org; ind; ref], [eorg; eind; eref] =>
      if nonnil org then bind (eorg true) (fun o => Ok (OObj [("organization", o)]))
      else if nonnil ind then bind (eind true) (fun o => Ok (OObj [("individual", o)]))
      else if nonnil ref then bind (eref true) (fun o => Ok (OObj [("ref", o)]))
      else Ok (OObj [])
  (* /repo/cyclonedx_json.go:351-356 and the five callers *)
  | HIKEv2, ref :: _, eref :: _ =>
      if nonempty ref then eref true else enc_struct true fs vs es
  (* /repo/cyclonedx_json.go:415-423 *)
  | HPatent, [patent; family], [epatent; efamily] =>
      if nonnil patent then epatent true
      else if nonnil family then efamily true
      else Ok (OObj [])
  | _, _, _ => Err EEmptyOutput
  end.

(** The output of MarshalJSON is scanned (json.appendCompact), which fails on more than
    [max_depth] levels. *)
Definition scanned (r : result jerr out) : result jerr out :=
  bind r (fun o => if too_deep (erase o) then Err ETooDeep else Ok o).

(** Encoding a value of type [t]. *)
Fixpoint jenc (esc : bool) (t : ty) (v : val) {struct v} : result jerr out :=
  match v with
  | VStr s => Ok (OStr esc s)
  | VInt z =>
      match marshal_hook t with
      | HSpecVersion => Ok (OStr true (SpecVersion_String z))      (* /repo/cyclonedx_json.go:103-105 *)
      | _ => Ok (ONum (format_int z))
      end
  | VBool b => Ok (OBool b)
  | VFlt (FFin neg m e) => Ok (ONum (json_float neg m e))
  | VFlt _ => Err EUnsupportedValue
  | VPtr None => Ok ONull
  | VPtr (Some x) => jenc esc (elem_ty t) x
  | VSlice None => Ok ONull
  | VSlice (Some l) =>
      bind ((fix elements (l : list val) : result jerr (list out) :=
               match l with
               | [] => Ok []
               | x :: l' => bind (jenc esc (elem_ty t) x) (fun o => bind (elements l') (fun os => Ok (o :: os)))
               end) l) (fun os => Ok (OArr os))
  | VStruct vs =>
      let fs := fields_of t in
      let es := (fix fields (vs : list val) (fs : list field) {struct vs} : list encoded :=
                   match vs, fs with
                   | x :: vs', f :: fs' => (fun esc => jenc esc (f_ty f) x) :: fields vs' fs'
                   | _, _ => []
                   end) vs fs in
      match marshal_hook t with
      | HNone => enc_struct esc fs vs es
      | h => scanned (marshal h fs vs es)
      end
  end.

(** encoder.Encode(bom), as a tree. *)
Definition bom_to_json (esc : bool) (b : BOM) : result jerr out := jenc esc (TRef "BOM") (reify_BOM b).

(** /repo/encode.go:59-71: [None] stands for the version error. *)
Inductive json_encode_err := EUnsupportedVersion | EMarshal (e : jerr).
Definition json_encode (esc : bool) (b : BOM) : result json_encode_err out :=
  if (BOM_SpecVersion b <? SpecVersion1_2)%Z then Err EUnsupportedVersion
  else match bom_to_json esc b with Ok o => Ok o | Err e => Err (EMarshal e) end.

(** /repo/encode.go:74-81; [copyAndConvert] cannot fail (C14). *)
Definition json_encode_version (esc : bool) (sv : SpecVersion) (b : BOM) : result json_encode_err out :=
  match copyAndConvert sv b with
  | Ok c => json_encode esc c
  | Err _ => Err (EMarshal EEmptyOutput)
  end.

(** ** Decoding *)

(** The outcome of decoding into a value: the new value and the first type error, which
    does not stop the decoder, or an error that does. *)
Inductive dres :=
| DVal (v : val) (saved : option jerr)
| DAbort (e : jerr).
(** A subdocument, waiting for a type and the value to decode into. *)
Definition decoder := ty -> val -> dres.
Record member := mkMember { m_null : bool; m_dec : decoder }.

Inductive shape :=
| SNull
| SBool (b : bool)
| SNum (lit : string)
| SStr (s : string)
| SArr (ds : list decoder)
| SObj (ms : list (string * member)).

Definition first_error (a b : option jerr) : option jerr := match a with Some _ => a | None => b end.

(** encoding/json foldName: letters are compared without case; the Kelvin sign and the
    long s count as k and s. *)
Definition upper (a : ascii) : ascii := if in_range "a" "z" a then ascii_of_N (byte_of a - 32) else a.
Fixpoint fold_name (s : string) : string :=
  match s with
  | String "226" (String "132" (String "170" s')) => String "K" (fold_name s')
  | String "197" (String "191" s') => String "S" (fold_name s')
  | String a s' => String (upper a) (fold_name s')
  | "" => ""
  end.
Fixpoint find_index {A} (p : A -> bool) (l : list A) : option nat :=
  match l with [] => None | x :: l' => if p x then Some O else option_map S (find_index p l') end.
(** The field a key belongs to. *)
Definition find_field (fs : list field) (key : string) : option nat :=
  let named (eq : string -> bool) (f : field) := match json_info f with Some (n, _) => eq n | None => false end in
  match find_index (named (String.eqb key)) fs with
  | Some i => Some i
  | None => find_index (named (fun n => String.eqb (fold_name n) (fold_name key))) fs
  end.

Fixpoint set_nth {A} (i : nat) (x : A) (l : list A) : list A :=
  match l, i with
  | [], _ => []
  | _ :: l', O => x :: l'
  | y :: l', S i' => y :: set_nth i' x l'
  end.

(** decodeState.object *)
Fixpoint dec_members (ms : list (string * member)) (fs : list field) (cur : list val) : (list val * option jerr) + jerr :=
  match ms with
  | [] => inl (cur, None)
  | (k, m) :: ms' =>
      match find_field fs k with
      | None => dec_members ms' fs cur
      | Some i =>
          match nth_error fs i, nth_error cur i with
          | Some f, Some c =>
              match m_dec m (f_ty f) c with
              | DAbort e => inr e
              | DVal v err =>
                  match dec_members ms' fs (set_nth i v cur) with
                  | inr e => inr e
                  | inl (cur', err') => inl (cur', first_error err err')
                  end
              end
          | _, _ => dec_members ms' fs cur
          end
      end
  end.

(** decodeState.array: element [i] is decoded into the existing element [i], if any.
    (Elements left over beyond the length of a slice, which Go would reuse, are taken to
    be zero; this matters only if one key occurs three times.) *)
Fixpoint dec_elements (ds : list decoder) (t : ty) (cur : list val) : (list val * option jerr) + jerr :=
  match ds with
  | [] => inl ([], None)
  | d :: ds' =>
      match d t (hd (zero_of t) cur) with
      | DAbort e => inr e
      | DVal v err =>
          match dec_elements ds' t (tl cur) with
          | inr e => inr e
          | inl (l, err') => inl (v :: l, first_error err err')
          end
      end
  end.

(** Decoding into a struct with the given fields. *)
Definition dec_struct (s : shape) (fs : list field) (cur : list val) : (list val * option jerr) + jerr :=
  match s with
  | SNull => inl (cur, None)
  | SBool _ => inl (cur, Some (EType "bool"))
  | SNum _ => inl (cur, Some (EType "number"))
  | SStr _ => inl (cur, Some (EType "string"))
  | SArr _ => inl (cur, Some (EType "array"))
  | SObj ms => dec_members ms fs cur
  end.

Definition list_of_slice (v : val) : list val := match v with VSlice (Some l) => l | _ => [] end.
Definition fields_of_val (v : val) : list val := match v with VStruct l => l | _ => [] end.

(** Decoding into a value whose type is not a pointer and has no UnmarshalJSON:
    decodeState.literalStore, array and object. *)
Definition plain (s : shape) (t : ty) (cur : val) : dres :=
  match kind_of t with
  | KStruct fs =>
      match dec_struct s fs (fields_of_val cur) with
      | inl (vs, err) => DVal (VStruct vs) err
      | inr e => DAbort e
      end
  | k =>
      match s, k with
      | SNull, KSlice _ => DVal (VSlice None) None
      | SNull, KPtr _ => DVal (VPtr None) None
      | SNull, _ => DVal cur None
      | SBool b, KBool => DVal (VBool b) None
      | SBool _, _ => DVal cur (Some (EType "bool"))
      | SNum lit, KInt => match atoi lit with Ok z => DVal (VInt z) None | Err _ => DVal cur (Some (EType ("number " ++ lit))) end
      | SNum lit, KFlt =>
          match parse_float (match t with TF32 => true | _ => false end) lit with
          | Some f => DVal (VFlt f) None
          | None => DVal cur (Some (EType ("number " ++ lit)))
          end
      | SNum _, _ => DVal cur (Some (EType "number"))
      | SStr x, KStr => DVal (VStr x) None
      | SStr _, _ => DVal cur (Some (EType "string"))
      | SArr ds, KSlice t' =>
          match dec_elements ds t' (list_of_slice cur) with
          | inl (l, err) => DVal (VSlice (Some l)) err
          | inr e => DAbort e
          end
      | SArr _, _ => DVal cur (Some (EType "array"))
      | SObj _, _ => DVal cur (Some (EType "object"))
      end
  end.

(** json.Unmarshal into a fresh variable. *)
Definition finish (r : dres) : result jerr val :=
  match r with DVal v None => Ok v | DVal _ (Some e) => Err e | DAbort e => Err e end.
Definition unmarshal_into (s : shape) (t : ty) : result jerr val := finish (plain s t (zero_of t)).
(** An UnmarshalJSON method that fails stops the decoder. *)
Definition hooked (r : result jerr val) : dres := match r with Ok v => DVal v None | Err e => DAbort e end.

(** The local struct types of the UnmarshalJSON methods. *)
Definition peek_field (go_name json_name : string) : list field :=
  [mkField go_name TStr ("json:""" ++ json_name ++ """") false].
Definition peek (s : shape) (go_name json_name : string) : result jerr string :=
  match dec_struct s (peek_field go_name json_name) [VStr ""] with
  | inl ([VStr x], None) => Ok x
  | inl (_, Some e) => Err e
  | inl (_, None) => Err ESyntax
  | inr e => Err e
  end.

(** Fields of type *json.RawMessage: the last member with that name, unless null. *)
Definition raw_fields : list field :=
  [ mkField "Organization" TStr "json:""organization""" false;
    mkField "Individual" TStr "json:""individual""" false;
    mkField "BOMRef" TStr "json:""ref""" false ].
Fixpoint dec_raw (ms : list (string * member)) (cur : list (option decoder)) : list (option decoder) :=
  match ms with
  | [] => cur
  | (k, m) :: ms' =>
      dec_raw ms' (match find_field raw_fields k with
                   | Some i => set_nth i (if m_null m then None else Some (m_dec m)) cur
                   | None => cur
                   end)
  end.

Definition some_ptr (v : val) : val := VPtr (Some v).

(** The UnmarshalJSON methods; [cur] are the fields of the receiver. *)
Definition unmarshal (h : hook) (s : shape) (t : ty) (cur : list val) : result jerr val :=
  match h, cur with
  (* /repo/cyclonedx_json.go:36-62 *)
  | HEnvironmentVariable, [prop; value] =>
      match plain s (TRef "Property") (zero_of (TRef "Property")) with
      | DAbort e => Err e
      | DVal p err =>
          match err with
          | None | Some (EType "string") =>
              if negb (zero_value p) then Ok (VStruct [some_ptr p; value])
              else match plain s TStr (VStr "") with
                   | DAbort e => Err e
                   | DVal v err' =>
                       match err' with
                       | None | Some (EType "object") => Ok (VStruct [prop; v])
                       | Some e => Err e
                       end
                   end
          | Some e => Err e
          end
      end
  (* /repo/cyclonedx_json.go:78-101 *)
  | HDataset, [ref; data] =>
      bind (unmarshal_into s (TRef "mlDatasetChoiceRefJSON")) (fun r =>
        match r with
        | VStruct [VStr x] =>
            if negb (String.eqb x "") then Ok (VStruct [VStr x; data])
            else bind (unmarshal_into s (TRef "ComponentData")) (fun d =>
                   Ok (VStruct [ref; if zero_value d then data else some_ptr d]))
        | _ => Err ESyntax
        end)
  (* /repo/cyclonedx_json.go:163-190 *)
  | HTools, _ =>
      match unmarshal_into s (TRef "toolsChoiceJSON") with
      | Ok (VStruct [comps; servs]) =>
          Ok (if (nonnil comps || nonnil servs)%bool then VStruct [VPtr None; comps; servs] else VStruct cur)
      | Ok _ => Err ESyntax
      | Err (EType "array") =>
          bind (unmarshal_into s (TSlice (TRef "Tool"))) (fun l => Ok (VStruct [some_ptr l; VPtr None; VPtr None]))
      | Err e => Err e
      end
  (* /repo/cyclonedx_json.go:204-220 *)
  | HIdentity, [one; many] =>
      match s with
      | SArr _ => bind (unmarshal_into s (TSlice (TRef "EvidenceIdentity"))) (fun l => Ok (VStruct [one; some_ptr l]))
      | _ => bind (unmarshal_into s (TRef "EvidenceIdentity")) (fun x => Ok (VStruct [some_ptr x; many]))
      end
  (* /repo/cyclonedx_json.go:245-266 *)
  | HCertState, [predefined; custom] =>
      bind (peek s "State" "state") (fun x =>
        if negb (String.eqb x "")
        then bind (unmarshal_into s (TRef "PredefinedCertificateState")) (fun p => Ok (VStruct [some_ptr p; custom]))
        else bind (unmarshal_into s (TRef "CustomCertificateState")) (fun c => Ok (VStruct [predefined; some_ptr c])))
  (* /repo/cyclonedx_json.go:280-301 *)
  | HCertExtension, [common; custom] =>
      bind (peek s "CommonExtensionName" "commonExtensionName") (fun x =>
        if negb (String.eqb x "")
        then bind (unmarshal_into s (TRef "CommonCertificateExtension")) (fun p => Ok (VStruct [some_ptr p; custom]))
        else bind (unmarshal_into s (TRef "CustomCertificateExtension")) (fun c => Ok (VStruct [common; some_ptr c])))
  (* /repo/cyclonedx_json.go:320-349 *)
  | HAsserter, [org; ind; ref] =>
      match s with
      | SNull => Ok (VStruct cur)
      | SObj ms =>
          match dec_raw ms [None; None; None] with
          | [Some d; _; _] => bind (finish (d (TRef "OrganizationalEntity") (zero_of (TRef "OrganizationalEntity"))))
                                   (fun v => Ok (VStruct [some_ptr v; ind; ref]))
          | [None; Some d; _] => bind (finish (d (TRef "OrganizationalContact") (zero_of (TRef "OrganizationalContact"))))
                                      (fun v => Ok (VStruct [org; some_ptr v; ref]))
          | [None; None; Some d] => bind (finish (d (TRef "BOMReference") (VStr "")))
                                         (fun v => Ok (VStruct [org; ind; some_ptr v]))
          | _ => Ok (VStruct cur)
          end
      | _ => match dec_struct s raw_fields [] with inl (_, Some e) => Err e | _ => Err ESyntax end
      end
  (* /repo/cyclonedx_json.go:358-363 and the five callers *)
  | HIKEv2, ref :: rest =>
      match s with
      | SStr x => Ok (VStruct (VStr x :: rest))
      | _ => finish (plain s t (VStruct cur))
      end
  (* /repo/cyclonedx_json.go:425-450 *)
  | HPatent, [patent; family] =>
      bind (peek s "FamilyID" "familyId") (fun x =>
        if negb (String.eqb x "")
        then bind (unmarshal_into s (TRef "PatentFamily")) (fun p => Ok (VStruct [patent; some_ptr p]))
        else bind (unmarshal_into s (TRef "Patent")) (fun c => Ok (VStruct [some_ptr c; family])))
  | _, _ => Err ESyntax
  end.

(** decodeState.value: pointers are allocated and followed, null makes a pointer nil, a
    type with UnmarshalJSON decodes itself. *)
Fixpoint node (s : shape) (t : ty) (cur : val) {struct t} : dres :=
  match t with
  | TPtr t' =>
      match s with
      | SNull => DVal (VPtr None) None
      | _ =>
          match node s t' (match cur with VPtr (Some x) => x | _ => zero_of t' end) with
          | DVal v err => DVal (some_ptr v) err
          | DAbort e => DAbort e
          end
      end
  | _ =>
      match unmarshal_hook t with
      | HNone => plain s t cur
      | HSpecVersion =>                                        (* /repo/cyclonedx_json.go:107-136 *)
          match finish (plain s TStr (VStr "")) with
          | Ok (VStr x) => match parse_spec_version x with Some z => DVal (VInt z) None | None => DAbort EInvalidSpecVersion end
          | Ok _ => DAbort ESyntax
          | Err e => DAbort e
          end
      | h => hooked (unmarshal h s t (fields_of_val cur))
      end
  end.

Definition is_null (j : json) : bool := match j with JNull => true | _ => false end.

Fixpoint jdec (j : json) : decoder :=
  node match j with
       | JNull => SNull
       | JBool b => SBool b
       | JNum lit => SNum lit
       | JStr s => SStr s
       | JArr l => SArr (map jdec l)
       | JObj ms => SObj (map (fun m => (fst m, mkMember (is_null (snd m)) (jdec (snd m)))) ms)
       end.

(** json.Unmarshal(bytes, bom), from the tree of [bytes]. What a failed call leaves in
    [bom] is not modelled. *)
Definition bom_of_json (j : json) (b : BOM) : result jerr BOM :=
  if too_deep j then Err ETooDeep
  else bind (finish (jdec j (TRef "BOM") (reify_BOM b))) (fun v => Ok (reflect_BOM v)).
