(** Documents that say only what an XML schema knows: the specification for C46. *)
From Verif Require Import Base Wt XmlModel.
Local Open Scope string_scope.

(** A type of elements: its attributes, the elements within it with the names of their types,
    and whether it holds text. *)
Record xtype := mkType { t_attrs : list string; t_kids : list (string * string); t_text : bool }.
Definition xsd := list (string * xtype).

(** [known d n attrs kids]: the type [n] defines every one of the attributes, holds text only if
    it may, and defines every element, under exactly that name and with what is in it. Order
    and number do not matter, nor do values: that is up to whoever fills in the BOM. An
    attribute xmlns is not an attribute but declares a name space. *)
Inductive known (d : xsd) : string -> list (string * string) -> list xml -> Prop :=
| known_element n T attrs kids :
    assoc n d = Some T ->
    (forall k v, In (k, v) attrs -> k = "xmlns" \/ In k (t_attrs T)) ->
    (forall s, In (XText s) kids -> t_text T = true) ->
    (forall sp l a ks, In (XElem sp l a ks) kids -> exists n', assoc l (t_kids T) = Some n' /\ known d n' a ks) ->
    known d n attrs kids
(* The type "*" stands for anything: the schema has no such type, exceptions have. *)
| known_anything attrs kids : known d "*" attrs kids.
