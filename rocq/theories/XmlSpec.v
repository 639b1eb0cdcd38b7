(** Documents that say the same. *)
From Verif Require Import Base Types XmlModel.
Local Open Scope string_scope.

Definition blank_char (a : ascii) : bool := existsb (Ascii.eqb a) [" "; "009"; "010"; "013"]%char.
Fixpoint blank (s : string) : bool := match s with "" => true | String a s' => blank_char a && blank s' end.
Definition blank_text (x : xml) : bool := match x with XText s => blank s | XElem _ _ _ _ => true end.

(** [seen x y]: [y] has the elements, attributes and texts of [x], in any name space and
    with any white space added between the children of elements that have child elements
    (and no text). *)
Inductive seen : xml -> xml -> Prop :=
| seen_leaf space space' local attrs kids :
    existsb is_elem kids = false ->
    seen (XElem space local attrs kids) (XElem space' local attrs kids)
| seen_node space space' local attrs kids kids' :
    kids <> [] -> Forall2 seen kids (filter is_elem kids') -> forallb blank_text kids' = true ->
    seen (XElem space local attrs kids) (XElem space' local attrs kids').

(** Levels of elements. *)
Fixpoint tall (x : xml) : N :=
  match x with
  | XText _ => 0
  | XElem _ _ _ kids => N.succ (fold_right N.max 0%N (map tall kids))
  end.
