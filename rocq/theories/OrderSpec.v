(** Documents whose elements are in the order and number that an XML schema asks for: the
    specifications for C47 and C48. *)
From Verif Require Import Base Wt XmlModel XsdSpec.
Local Open Scope string_scope.

(** For every type of elements, the ranks of the elements within it. *)
Definition orders := list (string * list (string * nat)).

(** The first comes before the second: its rank is not higher. Text has no rank, and neither
    have elements that the schema does not define (C46 is about those). *)
Definition before (ranks : list (string * nat)) (x y : xml) : Prop :=
  match x, y with
  | XElem _ k _ _, XElem _ l _ _ => match assoc k ranks, assoc l ranks with Some i, Some j => i <= j | _, _ => True end
  | _, _ => True
  end.
(** [arranged d o n kids]: within an element of type [n], whatever comes first may come before
    whatever comes later, and it is like that within all elements that the type defines. *)
Inductive arranged (d : xsd) (o : orders) : string -> list xml -> Prop :=
| arranged_element n T ranks kids :
    assoc n d = Some T -> assoc n o = Some ranks ->
    ForallOrdPairs (before ranks) kids ->
    (forall sp l a ks n', In (XElem sp l a ks) kids -> assoc l (t_kids T) = Some n' -> arranged d o n' ks) ->
    arranged d o n kids.

(** For every type of elements, the elements of which there is at most one within it. *)
Definition limits := list (string * list string).
Definition named (k : string) (x : xml) : bool := match x with XElem _ l _ _ => String.eqb l k | XText _ => false end.
(** [sparing d o n kids]: within an element of type [n] there is no second element where the
    schema has only one, and it is like that within all elements that the type defines. *)
Inductive sparing (d : xsd) (o : limits) : string -> list xml -> Prop :=
| sparing_element n T once kids :
    assoc n d = Some T -> assoc n o = Some once ->
    (forall k, In k once -> length (filter (named k) kids) <= 1) ->
    (forall sp l a ks n', In (XElem sp l a ks) kids -> assoc l (t_kids T) = Some n' -> sparing d o n' ks) ->
    sparing d o n kids.
