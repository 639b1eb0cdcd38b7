(** Text of numbers: strconv and the number formatting of encoding/json and
    encoding/xml. A float is its shortest decimal (see Types.v), so that strconv's
    search for the shortest digits is not modelled, only their layout. *)
From Verif Require Import Base Types LinkModel.
Local Open Scope string_scope.

Definition is_digit (a : ascii) : bool := in_range "0" "9" a.

(** The longest prefix of digits, and the rest. *)
Fixpoint span_digits (s : string) : string * string :=
  match s with
  | String a s' => if is_digit a then let (d, r) := span_digits s' in (String a d, r) else ("", s)
  | EmptyString => ("", "")
  end.

Fixpoint zeros (n : nat) : string := match n with O => "" | S n' => String "0" (zeros n') end.

(** The digits [m] and the position of the decimal point: the value is
    0.digits * 10^point. *)
Definition float_digits (m : N) : string := format_int (Z.of_N m).
Definition float_point (m : N) (e : Z) : Z := (Z.of_nat (String.length (float_digits m)) + e)%Z.

(** strconv format 'f' with the shortest precision *)
Definition layout_f (m : N) (e : Z) : string :=
  let d := float_digits m in
  let dp := float_point m e in
  if (m =? 0)%N then "0"
  else if (dp <=? 0)%Z then "0." ++ zeros (Z.to_nat (- dp)) ++ d
  else if (0 <=? e)%Z then d ++ zeros (Z.to_nat e)
  else String.substring 0 (Z.to_nat dp) d ++ "." ++ String.substring (Z.to_nat dp) (String.length d - Z.to_nat dp) d.

(** strconv format 'e' with the shortest precision: exponents have at least two digits *)
Definition exponent_text (pad : bool) (x : Z) : string :=
  let d := format_int (Z.abs x) in
  (if (x <? 0)%Z then "-" else "+") ++ (if (pad && (Z.abs x <? 10)%Z)%bool then "0" else "") ++ d.
Definition layout_e (pad : bool) (m : N) (e : Z) : string :=
  match float_digits m with
  | String a "" => String a ("e" ++ exponent_text pad (float_point m e - 1))
  | String a r => String a ("." ++ r ++ "e" ++ exponent_text pad (float_point m e - 1))
  | "" => ""
  end.

(** encoding/json floatEncoder: format 'e' below 1e-6 and from 1e21 on, with e-09
    written e-9 *)
Definition json_float (neg : bool) (m : N) (e : Z) : string :=
  let dp := float_point m e in
  (if neg then "-" else "") ++
  (if (negb (m =? 0)%N && ((dp <? -5)%Z || (22 <=? dp)%Z))%bool then layout_e false m e else layout_f m e).

(** encoding/xml marshalSimple: strconv format 'g', which is format 'e' for exponents
    below -4 and from 6 on *)
Definition xml_float (f : gofloat) : string :=
  match f with
  | FFin neg m e =>
      let x := (float_point m e - 1)%Z in
      (if neg then "-" else "") ++
      (if (m =? 0)%N then "0"
       else if ((x <? -4)%Z || (6 <=? x)%Z)%bool then layout_e true m e else layout_f m e)
  | FInf neg => if neg then "-Inf" else "+Inf"
  | FNaN => "NaN"
  end.

(** ** Reading *)

(** The form of a decimal with no trailing zero. *)
Fixpoint strip_zeros (fuel : nat) (m : N) (e : Z) : N * Z :=
  match fuel with
  | O => (m, e)
  | S f => if (m mod 10 =? 0)%N then strip_zeros f (m / 10)%N (e + 1)%Z else (m, e)
  end.
Definition normalize (m : N) (e : Z) : N * Z :=
  if (m =? 0)%N then (0%N, 0%Z) else strip_zeros (N.size_nat m) m e.

Definition digits_N (s : string) : N := match digits_val s 0 with Some z => Z.to_N z | None => 0%N end.

(** The exponent at the end of a number. *)
Definition parse_exponent (s : string) : option Z :=
  match s with
  | "" => Some 0%Z
  | String a r =>
      if (Ascii.eqb a "e" || Ascii.eqb a "E")%bool then
        let (neg, r) := match r with String "-" r' => (true, r') | String "+" r' => (false, r') | _ => (false, r) end in
        match span_digits r with
        | (String b d, "") => Some (let x := Z.of_N (digits_N (String b d)) in if (neg : bool) then (- x)%Z else x)
        | _ => None
        end
      else None
  end.

(** A decimal literal: sign, digits, optional fraction, optional exponent; the
    syntax that strconv.ParseFloat and the JSON grammar have in common, with the
    leading zeros that JSON forbids. *)
Definition parse_decimal (s : string) : option (bool * N * Z) :=
  let (neg, s) := match s with String "-" r => (true, r) | _ => (false, s) end in
  match span_digits s with
  | ("", _) => None
  | (ip, String "." r) =>
      match span_digits r with
      | ("", _) => None
      | (fp, r') => match parse_exponent r' with
                    | Some x => Some (neg, digits_N (ip ++ fp), (x - Z.of_nat (String.length fp))%Z)
                    | None => None
                    end
      end
  | (ip, r) => match parse_exponent r with
               | Some x => Some (neg, digits_N ip, x)
               | None => None
               end
  end.

(** Does the decimal round to infinity? The smallest such value is halfway between the
    largest float and the next power of two. *)
Definition float_limit (bits32 : bool) : N :=
  if bits32 then (2 ^ 128 - 2 ^ 103)%N else (2 ^ 1024 - 2 ^ 970)%N.
Definition overflows (bits32 : bool) (m : N) (e : Z) : bool :=
  if (m =? 0)%N then false
  else if (400 <? float_point m e)%Z then true
  else if (0 <=? e)%Z then (float_limit bits32 <=? m * 10 ^ Z.to_N e)%N
  else (float_limit bits32 * 10 ^ Z.to_N (- e) <=? m)%N.

(** strconv.ParseFloat on such a literal; [None] is a syntax or range error. That small
    values lose digits or become zero is not modelled. *)
Definition parse_float (bits32 : bool) (s : string) : option gofloat :=
  match parse_decimal s with
  | Some (neg, m, e) =>
      let (m', e') := normalize m e in
      if overflows bits32 m' e' then None else Some (FFin neg m' e')
  | None => None
  end.

(** A finite float in range, in the form described in Types.v. *)
Definition float_ok (bits32 : bool) (f : gofloat) : bool :=
  match f with
  | FFin _ m e => (((m =? 0)%N && (e =? 0)%Z) || negb (m mod 10 =? 0)%N) && negb (overflows bits32 m e)
  | _ => false
  end.

(** The JSON grammar of numbers. *)
Definition json_number (s : string) : bool :=
  let s := match s with String "-" r => r | _ => s end in
  match span_digits s with
  | ("", _) => false
  | (String "0" (String _ _), _) => false
  | (_, String "." r) =>
      match span_digits r with
      | ("", _) => false
      | (_, r') => match parse_exponent r' with Some _ => true | None => false end
      end
  | (_, r) => match parse_exponent r with Some _ => true | None => false end
  end.
