(** Go values as seen by reflection, which is how encoding/json, encoding/xml and
    encoding/gob see them: a value is interpreted along its type, and struct types
    are described by a table of fields with their tags (TypeTable.v). *)
From Verif Require Import Base Types.
Local Open Scope string_scope.

(** A value. The fields of a struct are listed in declaration order. *)
Inductive val :=
| VStr (s : string)
| VInt (z : Z)
| VBool (b : bool)
| VFlt (f : gofloat)
| VPtr (p : option val)             (* None: nil *)
| VSlice (s : option (list val))    (* None: nil slice *)
| VStruct (fs : list val).

(** A type. [TRef n] is the type named [n] in the table. Named string types without
    methods are written [TStr]; no codec can tell them apart. *)
Inductive ty :=
| TStr | TInt | TBool | TF32 | TF64
| TPtr (t : ty)
| TSlice (t : ty)
| TRef (name : string).

(** A struct field: its Go name, type, tag (verbatim), and whether it is embedded. *)
Record field := mkField { f_name : string; f_ty : ty; f_tag : string; f_embedded : bool }.

Inductive tdef :=
| DStruct (fs : list field)
| DAlias (t : ty).

(** ** Struct tags *)

Fixpoint until (stop : ascii) (s : string) : string :=
  match s with
  | EmptyString => ""
  | String c s' => if Ascii.eqb c stop then "" else String c (until stop s')
  end.
Fixpoint after (stop : ascii) (s : string) : string :=
  match s with
  | EmptyString => ""
  | String c s' => if Ascii.eqb c stop then s' else after stop s'
  end.

(** reflect.StructTag.Lookup for tags of the form key:"value" key:"value", with no
    escapes inside the values (none of the tags has any). [n] bounds the number of
    keys. *)
Fixpoint tag_lookup (n : nat) (key tag : string) : option string :=
  match n with
  | O => None
  | S n' =>
      match trim_prefix " " tag with
      | "" => None
      | t =>
          let k := until ":" t in
          let rest := after """" t in
          if String.eqb k key then Some (until """" rest) else tag_lookup n' key (after """" rest)
      end
  end.
Definition tag_get (key tag : string) : option string := tag_lookup 4 key tag.

(** The comma separated parts: the name and the options. *)
Fixpoint split_on (sep : ascii) (s : string) : list string :=
  match s with
  | EmptyString => [""]
  | String c s' =>
      if Ascii.eqb c sep then "" :: split_on sep s'
      else match split_on sep s' with
           | [] => [String c ""]
           | x :: l => String c x :: l
           end
  end.

(** ** Induction over values *)
Section ValInd.
  Variable P : val -> Prop.
  Hypothesis Hstr : forall s, P (VStr s).
  Hypothesis Hint : forall z, P (VInt z).
  Hypothesis Hbool : forall b, P (VBool b).
  Hypothesis Hflt : forall f, P (VFlt f).
  Hypothesis Hnil : P (VPtr None).
  Hypothesis Hptr : forall v, P v -> P (VPtr (Some v)).
  Hypothesis Hnils : P (VSlice None).
  Hypothesis Hslice : forall l, Forall P l -> P (VSlice (Some l)).
  Hypothesis Hstruct : forall l, Forall P l -> P (VStruct l).

  Fixpoint val_induction (v : val) : P v :=
    match v with
    | VStr s => Hstr s
    | VInt z => Hint z
    | VBool b => Hbool b
    | VFlt f => Hflt f
    | VPtr None => Hnil
    | VPtr (Some x) => Hptr x (val_induction x)
    | VSlice None => Hnils
    | VSlice (Some l) =>
        Hslice l ((fix go l : Forall P l :=
                     match l with [] => Forall_nil P | x :: l' => Forall_cons x (val_induction x) (go l') end) l)
    | VStruct l =>
        Hstruct l ((fix go l : Forall P l :=
                      match l with [] => Forall_nil P | x :: l' => Forall_cons x (val_induction x) (go l') end) l)
    end.
End ValInd.

(** ** Typed values and reflected values *)
Definition vptr {A} (f : A -> val) (p : ptr A) : val := VPtr (option_map f p).
Definition vslice {A} (f : A -> val) (s : slice A) : val := VSlice (option_map (map f) s).

Definition str_of (v : val) : string := match v with VStr s => s | _ => "" end.
Definition int_of (v : val) : Z := match v with VInt z => z | _ => 0%Z end.
Definition bool_of (v : val) : bool := match v with VBool b => b | _ => false end.
Definition flt_of (v : val) : gofloat := match v with VFlt f => f | _ => fzero end.
Definition ptr_of {A} (f : val -> A) (v : val) : ptr A := match v with VPtr p => option_map f p | _ => None end.
Definition slice_of {A} (f : val -> A) (v : val) : slice A := match v with VSlice s => option_map (map f) s | _ => None end.

Definition vname (n : XMLName) : val := VStruct [VStr (XMLName_Space n); VStr (XMLName_Local n)].
Definition name_of (v : val) : XMLName :=
  match v with VStruct [a; b] => mkXMLName (str_of a) (str_of b) | _ => mkXMLName "" "" end.
