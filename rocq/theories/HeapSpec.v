(** What is said about memory and goroutines in C01 and C32, apart from the programs. *)
From Verif Require Import Base Types Univ TypeTable Reify HeapModel.

(** The memory behind [c] shows the value [v]: what a reader following all pointers finds.
    Two pointers may lead to the same cell. *)
Inductive shows (h : heap) : hval -> val -> Prop :=
| shows_str s : shows h (HStr s) (VStr s)
| shows_int z : shows h (HInt z) (VInt z)
| shows_bool b : shows h (HBool b) (VBool b)
| shows_flt f : shows h (HFlt f) (VFlt f)
| shows_nil : shows h (HPtr None) (VPtr None)
| shows_ptr a c v : h a = Some c -> shows h c v -> shows h (HPtr (Some a)) (VPtr (Some v))
| shows_nils : shows h (HSlice None) (VSlice None)
| shows_slice a cs vs : h a = Some (HStruct cs) -> Forall2 (shows h) cs vs -> shows h (HSlice (Some a)) (VSlice (Some vs))
| shows_struct cs vs : Forall2 (shows h) cs vs -> shows h (HStruct cs) (VStruct vs).

(** The caller's pointer [b] leads to the BOM [bom]. *)
Definition bom_at (h : heap) (b : addr) (bom : BOM) : Prop := exists c, h b = Some c /\ shows h c (reify_BOM bom).

(** Memory in which no EncodeVersion has run yet. *)
Definition callers_only (h : heap) : Prop := forall a, h a <> None -> fst a = 0.

(** Calls of EncodeVersion, each in a goroutine of its own, about to start. *)
Notation call_of := (SpecVersion * addr)%type.
Definition start (fuel : nat) (calls : list call_of) : pool (result string val) :=
  map (fun c => (hEncodeVersion fuel (fst c) (snd c), 0)) calls.
