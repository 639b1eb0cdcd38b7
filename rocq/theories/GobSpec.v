(** What the deep copy may change: the specification of C14.

    [vanishes v]: Go calls the value zero or empty, or it is a nil pointer, or a pointer
    to such a value. A struct never vanishes. *)
From Verif Require Import Base Types Univ.
Local Open Scope string_scope.

Inductive vanishes : val -> Prop :=
| van_str : vanishes (VStr "")
| van_int : vanishes (VInt 0)
| van_bool : vanishes (VBool false)
| van_flt neg e : vanishes (VFlt (FFin neg 0 e))
| van_nil : vanishes (VPtr None)
| van_ptr x : vanishes x -> vanishes (VPtr (Some x))
| van_nils : vanishes (VSlice None)
| van_empty : vanishes (VSlice (Some [])).

(** [copied v w]: [w] is [v], except that a pointer to a vanishing value has become nil,
    an empty list has become a nil list and a zero has lost its sign. *)
Inductive copied : val -> val -> Prop :=
| cp_str s : copied (VStr s) (VStr s)
| cp_int z : copied (VInt z) (VInt z)
| cp_bool b : copied (VBool b) (VBool b)
| cp_flt f : ~ vanishes (VFlt f) -> copied (VFlt f) (VFlt f)
| cp_zero f : vanishes (VFlt f) -> copied (VFlt f) (VFlt fzero)
| cp_nil : copied (VPtr None) (VPtr None)
| cp_lost x : vanishes x -> copied (VPtr (Some x)) (VPtr None)
| cp_ptr x y : ~ vanishes x -> copied x y -> copied (VPtr (Some x)) (VPtr (Some y))
| cp_nils : copied (VSlice None) (VSlice None)
| cp_empty : copied (VSlice (Some [])) (VSlice None)
| cp_list x l y m : Forall2 copied (x :: l) (y :: m) -> copied (VSlice (Some (x :: l))) (VSlice (Some (y :: m)))
| cp_struct l m : Forall2 copied l m -> copied (VStruct l) (VStruct m).

(** No pointer, at any depth, leads to a vanishing value, and no list is empty but not
    nil. *)
Inductive nothing_to_lose : val -> Prop :=
| nl_str s : nothing_to_lose (VStr s)
| nl_int z : nothing_to_lose (VInt z)
| nl_bool b : nothing_to_lose (VBool b)
| nl_flt f : f = fzero \/ ~ vanishes (VFlt f) -> nothing_to_lose (VFlt f)
| nl_nil : nothing_to_lose (VPtr None)
| nl_ptr x : ~ vanishes x -> nothing_to_lose x -> nothing_to_lose (VPtr (Some x))
| nl_nils : nothing_to_lose (VSlice None)
| nl_list x l : Forall nothing_to_lose (x :: l) -> nothing_to_lose (VSlice (Some (x :: l)))
| nl_struct l : Forall nothing_to_lose l -> nothing_to_lose (VStruct l).
