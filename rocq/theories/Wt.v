(** The kind of a type, well-typed values, zero values. *)
From Verif Require Import Base Types Univ TypeTable.
Local Open Scope string_scope.

Inductive kind :=
| KStr | KInt | KBool | KFlt
| KPtr (t : ty)
| KSlice (t : ty)
| KStruct (fs : list field)
| KBad.

Fixpoint assoc {A} (n : string) (l : list (string * A)) : option A :=
  match l with [] => None | (k, a) :: l' => if String.eqb k n then Some a else assoc n l' end.

(** The kind of a type that is not named. *)
Definition kind_base (t : ty) : kind :=
  match t with
  | TStr => KStr | TInt => KInt | TBool => KBool | TF32 => KFlt | TF64 => KFlt
  | TPtr t' => KPtr t' | TSlice t' => KSlice t' | TRef _ => KBad
  end.

Definition kind_of (t : ty) : kind :=
  match t with
  | TRef n => match assoc n defs with
              | Some (DStruct fs) => KStruct fs
              | Some (DAlias t') => kind_base t'
              | None => KBad
              end
  | _ => kind_base t
  end.

Definition zip_all {A B} (P : A -> B -> Prop) : list B -> list A -> Prop :=
  fix go bs as_ := match bs, as_ with
                   | [], [] => True
                   | b :: bs', a :: as' => P a b /\ go bs' as'
                   | _, _ => False
                   end.

Definition list_all {A} (P : A -> Prop) : list A -> Prop :=
  fix go l := match l with [] => True | x :: l' => P x /\ go l' end.

(** [v] is a value of type [t]. *)
Fixpoint wt (t : ty) (v : val) {struct v} : Prop :=
  match v with
  | VStr _ => kind_of t = KStr
  | VInt _ => kind_of t = KInt
  | VBool _ => kind_of t = KBool
  | VFlt _ => kind_of t = KFlt
  | VPtr p => match kind_of t with
              | KPtr t' => match p with Some x => wt t' x | None => True end
              | _ => False
              end
  | VSlice s => match kind_of t with
                | KSlice t' => match s with Some l => list_all (wt t') l | None => True end
                | _ => False
                end
  | VStruct vs => match kind_of t with
                  | KStruct fs => zip_all (fun f x => wt (f_ty f) x) vs fs
                  | _ => False
                  end
  end.

(** The zero value of a type; [n] bounds the nesting of structs by value. *)
Fixpoint zero_n (n : nat) (t : ty) : val :=
  match kind_of t with
  | KStr => VStr ""
  | KInt => VInt 0
  | KBool => VBool false
  | KFlt => VFlt fzero
  | KPtr _ => VPtr None
  | KSlice _ => VSlice None
  | KStruct fs => match n with S n' => VStruct (map (fun f => zero_n n' (f_ty f)) fs) | O => VStruct [] end
  | KBad => VStruct []
  end.
Definition zero_of (t : ty) : val := zero_n 4 t.
