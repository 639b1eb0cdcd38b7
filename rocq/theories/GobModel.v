(** The deep copy made by EncodeVersion: encode the BOM with encoding/gob and decode
    the bytes into a fresh BOM.

    encoding/gob is modelled at the level of its wire values. Assumed of it: the byte
    encodings of integers, floats, strings and lengths are read back as written.
    Not modelled: the limit of 1 GiB on a message and on the memory of a slice, beyond
    which Decode returns an error. *)
From Verif Require Import Base Types Univ TypeTable Wt Reify Consts Version ConvertModel.
Local Open Scope string_scope.

(** A wire value. A struct is a list of fields that were sent, each with its distance
    from the previous one ("delta encoding"). *)
Inductive wire :=
| WStr (s : string)
| WInt (z : Z)
| WBool (b : bool)
| WFlt (f : gofloat)
| WSlice (l : list wire)
| WStruct (fs : list (nat * wire)).

(** [f == 0] in Go: true of 0 and of -0. *)
Definition float_is_zero (f : gofloat) : bool :=
  match f with FFin _ 0%N _ => true | _ => false end.

Definition gob_nil_element := "gob: encodeArray: nil element".
Definition gob_mismatch := "gob: wrong type received".

(** What encoding/gob sends for a value; [Ok None] means that nothing is sent.
    [send_zero] is set for the elements of a slice. (gob encode.go: encBool, encInt,
    encFloat, encString, encOpFor, encodeStruct, encodeArray) *)
Fixpoint gob_send (send_zero : bool) (v : val) {struct v} : result string (option wire) :=
  let unless_zero (zero : bool) (w : wire) := Ok (if zero && negb send_zero then None else Some w) in
  match v with
  | VStr s => unless_zero (String.eqb s "") (WStr s)
  | VInt z => unless_zero (Z.eqb z 0) (WInt z)
  | VBool b => unless_zero (negb b) (WBool b)
  | VFlt f => unless_zero (float_is_zero f) (WFlt f)
  | VPtr None => Ok None
  | VPtr (Some x) => gob_send send_zero x
  | VSlice None => unless_zero true (WSlice [])
  | VSlice (Some l) =>
      match
        (fix elements (l : list val) : result string (list wire) :=
           match l with
           | [] => Ok []
           | x :: l' =>
               match gob_send true x with
               | Ok (Some w) => bind (elements l') (fun ws => Ok (w :: ws))
               | Ok None => Err gob_nil_element
               | Err e => Err e
               end
           end) l
      with
      | Ok ws => unless_zero (match ws with [] => true | _ => false end) (WSlice ws)
      | Err e => Err e
      end
  | VStruct vs =>
      bind ((fix fields (delta : nat) (vs : list val) : result string (list (nat * wire)) :=
               match vs with
               | [] => Ok []
               | x :: vs' =>
                   match gob_send false x with
                   | Ok (Some w) => bind (fields 1 vs') (fun ws => Ok ((delta, w) :: ws))
                   | Ok None => fields (S delta) vs'
                   | Err e => Err e
                   end
               end) 1 vs) (fun ws => Ok (Some (WStruct ws)))
  end.

(** The type behind the pointers, and how many there are. *)
Fixpoint base_of (t : ty) : nat * ty :=
  match t with TPtr t' => let (n, b) := base_of t' in (S n, b) | _ => (O, t) end.
Fixpoint pointers (n : nat) (v : val) : val :=
  match n with O => v | S n' => VPtr (Some (pointers n' v)) end.

(** Decoding into a zero value of type [t]: pointers are allocated, a slice of length 0
    stays nil, fields that were not sent keep their zero value. (gob decode.go:
    decAlloc, decodeStruct, decodeSlice) *)
Fixpoint gob_receive (w : wire) (t : ty) {struct w} : result string val :=
  let (n, b) := base_of t in
  bind
    match w, kind_of b with
    | WStr s, KStr => Ok (VStr s)
    | WInt z, KInt => Ok (VInt z)
    | WBool x, KBool => Ok (VBool x)
    | WFlt f, KFlt => Ok (VFlt f)
    | WSlice [], KSlice _ => Ok (VSlice None)
    | WSlice ws, KSlice t' =>
        bind ((fix elements (ws : list wire) : result string (list val) :=
                 match ws with
                 | [] => Ok []
                 | w :: ws' => bind (gob_receive w t') (fun x => bind (elements ws') (fun l => Ok (x :: l)))
                 end) ws) (fun l => Ok (VSlice (Some l)))
    | WStruct ws, KStruct fs =>
        bind ((fix fields (ws : list (nat * wire)) (fs : list field) : result string (list val) :=
                 match ws with
                 | [] => Ok (map (fun f => zero_of (f_ty f)) fs)
                 | (delta, w) :: ws' =>
                     match skipn (delta - 1) fs with
                     | [] => Err gob_mismatch
                     | f :: fs' =>
                         bind (gob_receive w (f_ty f)) (fun x => bind (fields ws' fs') (fun l =>
                           Ok (map (fun f => zero_of (f_ty f)) (firstn (delta - 1) fs) ++ x :: l)%list))
                     end
                 end) ws fs) (fun l => Ok (VStruct l))
    | _, _ => Err gob_mismatch
    end
    (fun v => Ok (pointers n v)).

(** /repo/copy.go:30-43, for a destination that holds a zero BOM, as it does in
    copyAndConvert. *)
Definition copy (b : BOM) : result string BOM :=
  match gob_send false (reify_BOM b) with
  | Ok (Some w) => bind (gob_receive w (TRef "BOM")) (fun v => Ok (reflect_BOM v))
  | Ok None => Err gob_mismatch
  | Err e => Err e
  end.

(** /repo/convert.go:23-32 *)
Definition copyAndConvert (sv : SpecVersion) (b : BOM) : result string BOM :=
  bind (copy b) (fun c => Ok (convert sv c)).
