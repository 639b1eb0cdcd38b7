(** Specification of BOM links, independent of the regexps and of the code:
    the grammar in plain words and the numeric value of a decimal string. From
    the model only the types of links and of linkable elements are used. *)
From Verif Require Import Base LinkModel.
Local Open Scope string_scope.

Definition one_of (chars : string) (a : ascii) : Prop := In a (list_ascii_of_string chars).
Definition all_of (chars : string) (s : string) : Prop :=
  forall a, In a (list_ascii_of_string s) -> one_of chars a.

Definition decimal_digits := "0123456789".
Definition lower_hex_digits := "0123456789abcdef".

(** A lower-case RFC-4122 UUID: 8-4-4-4-12 hexadecimal digits. *)
Definition uuid (s : string) : Prop :=
  exists a b c d e,
    s = a ++ "-" ++ b ++ "-" ++ c ++ "-" ++ d ++ "-" ++ e /\
    String.length a = 8 /\ String.length b = 4 /\ String.length c = 4 /\
    String.length d = 4 /\ String.length e = 12 /\
    all_of lower_hex_digits (a ++ b ++ c ++ d ++ e).

(** Serial number: urn:uuid:<uuid>. *)
Definition valid_serial (s : string) : Prop := exists u, s = "urn:uuid:" ++ u /\ uuid u.

(** A positive decimal number without leading zeros. *)
Definition positive_decimal (s : string) : Prop :=
  exists a r, s = String a r /\ one_of "123456789" a /\ all_of decimal_digits r.

(** Characters allowed in the (escaped) reference of a link. *)
Definition reference_chars :=
  "0123456789abcdefghijklmnopqrstuvwxyzABCDEFGHIJKLMNOPQRSTUVWXYZ-._~%!$&'()*+,;=:@/?".

Definition reference_text (s : string) : Prop := s <> "" /\ all_of reference_chars s.

(** [link_text s u ver ref]: [s] is the text of a link to serial [u], version
    text [ver] and optional reference text [ref]. *)
Definition link_text (s u ver : string) (ref : option string) : Prop :=
  s = "urn:cdx:" ++ u ++ "/" ++ ver ++ match ref with Some r => "#" ++ r | None => "" end /\
  uuid u /\ positive_decimal ver /\
  match ref with Some r => reference_text r | None => True end.

(** Numeric value of a decimal string. *)
Fixpoint decimal_value (s : string) : Z :=
  match s with
  | EmptyString => 0
  | String a s' => Z.of_N (N_of_ascii a - 48) * 10 ^ Z.of_nat (String.length s') + decimal_value s'
  end%Z.

(** Percent-encoding as a relation: [percent s t] says the text [s] stands for the
    bytes [t] ("+" is a space, "%XY" the byte with that hexadecimal value, any
    other character itself). *)
Definition hexval (c : ascii) (n : N) : Prop :=
  exists i, (String.get i "0123456789abcdef" = Some c \/ String.get i "0123456789ABCDEF" = Some c) /\ n = N.of_nat i.

Inductive percent : string -> string -> Prop :=
| percent_nil : percent "" ""
| percent_plus s t : percent s t -> percent (String "+" s) (String " " t)
| percent_hex h l x y s t :
    hexval h x -> hexval l y -> percent s t ->
    percent (String "%" (String h (String l s))) (String (ascii_of_N (16 * x + y)) t)
| percent_char a s t :
    a <> "+"%char -> a <> "%"%char -> percent s t -> percent (String a s) (String a t).

(** The bom-ref of a linkable element; [None] for nil, for other types and for
    typed nil pointers. *)
Definition elem_bomref (e : elem) : option string :=
  match e with
  | ElemComponent r | ElemService r | ElemVulnerability r
  | ElemComponentPtr (Some r) | ElemServicePtr (Some r) | ElemVulnerabilityPtr (Some r) => Some r
  | _ => None
  end.

Definition typed_nil (e : elem) : Prop :=
  e = ElemComponentPtr None \/ e = ElemServicePtr None \/ e = ElemVulnerabilityPtr None.
