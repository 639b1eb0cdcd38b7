(** Basic representation of Go values used throughout the model.

    - [*T]   is [ptr T]   ([None] = nil pointer)
    - [[]T]  is [slice T] ([None] = nil slice, [Some []] = empty non-nil slice)
    - [error] results are [result]
    - [string] is Coq's [string]: a sequence of bytes, as in Go
    - [int] is [Z]; the 64-bit range is stated where it matters. *)
From Coq Require Export String Ascii List ZArith NArith Bool.
Export ListNotations.

Definition ptr (A : Type) : Type := option A.
Definition slice (A : Type) : Type := option (list A).

Inductive result (E A : Type) : Type :=
| Ok (a : A)
| Err (e : E).
Arguments Ok {E A} a.
Arguments Err {E A} e.

Definition bind {E A B} (r : result E A) (f : A -> result E B) : result E B :=
  match r with Ok a => f a | Err e => Err e end.

(** Go's [==] on strings. *)
Definition str_eqb (a b : string) : bool := String.eqb a b.

(** Bytes as numbers. *)
Definition byte_of (c : ascii) : N := N_of_ascii c.

(** [lo <= c <= hi] on bytes. *)
Definition in_range (lo hi c : ascii) : bool :=
  (N.leb (byte_of lo) (byte_of c) && N.leb (byte_of c) (byte_of hi))%bool.

Fixpoint str_all (p : ascii -> bool) (s : string) : bool :=
  match s with
  | EmptyString => true
  | String c s' => (p c && str_all p s')%bool
  end.

(** strings.TrimPrefix *)
Fixpoint strip_prefix (p s : string) : option string :=
  match p, s with
  | EmptyString, _ => Some s
  | String a p', String b s' =>
      if Ascii.eqb a b then strip_prefix p' s' else None
  | String _ _, EmptyString => None
  end.

Definition trim_prefix (p s : string) : string :=
  match strip_prefix p s with Some r => r | None => s end.

Definition max_int : Z := 9223372036854775807.   (* math.MaxInt on 64-bit platforms *)
Definition min_int : Z := -9223372036854775808.
Definition is_int (z : Z) : bool := (Z.leb min_int z && Z.leb z max_int)%bool.
