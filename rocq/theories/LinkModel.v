(** Model of /repo/link.go and of [serialNumberRegex] in /repo/cyclonedx.go. *)
From Verif Require Import Base Regex.
Local Open Scope string_scope.

(** /repo/cyclonedx.go:1396 [serialNumberRegex], literal verbatim. *)
Definition serialNumberRegex_src : string :=
  "^urn:uuid:[\da-f]{8}-[\da-f]{4}-[\da-f]{4}-[\da-f]{4}-[\da-f]{12}$".
Definition serialNumberRegex : re := Eval vm_compute in must_compile serialNumberRegex_src.

(** /repo/link.go:112 [bomLinkRegex], literal verbatim. *)
Definition bomLinkRegex_src : string :=
  "^urn:cdx:(?P<serial>[\da-f]{8}-[\da-f]{4}-[\da-f]{4}-[\da-f]{4}-[\da-f]{12})/(?P<version>[1-9]\d*)(?:#(?P<ref>[\da-zA-Z\-._~%!$&'()*+,;=:@/?]+))?$".
Definition bomLinkRegex : re := Eval vm_compute in must_compile bomLinkRegex_src.

(** ** Standard library functions used by link.go *)

(** Decimal digits of a non-negative number, most significant first
    ([fmt.Sprintf "%d"] for non-negative ints). [fuel] bounds the digit count. *)
Definition digit_char (d : Z) : ascii := ascii_of_N (48 + Z.to_N d)%N.

Fixpoint dec_digits (fuel : nat) (z : Z) (acc : string) : string :=
  match fuel with
  | O => acc
  | S f =>
      let acc' := String (digit_char (z mod 10)%Z) acc in
      if (z <? 10)%Z then acc' else dec_digits f (z / 10)%Z acc'
  end.

(** [fmt.Sprintf("%d", z)], [strconv.FormatInt(z, 10)]. The fuel
    [log2 z + 1 >= number of decimal digits] is always sufficient. *)
Definition format_int (z : Z) : string :=
  if (z <? 0)%Z
  then String "-" (dec_digits (S (Z.to_nat (Z.log2 (- z)))) (- z)%Z "")
  else dec_digits (S (Z.to_nat (Z.log2 z))) z "".

Fixpoint digits_val (s : string) (acc : Z) : option Z :=
  match s with
  | EmptyString => Some acc
  | String a s' =>
      if in_range "0" "9" a
      then digits_val s' (10 * acc + Z.of_N (byte_of a - 48))%Z
      else None
  end.

Inductive atoi_err := ErrSyntax | ErrRange.

(** [strconv.Atoi]: optional sign, at least one digit, 64-bit range check.
    (Underscores and base prefixes are not accepted by Atoi.) *)
Definition atoi (s : string) : result atoi_err Z :=
  let '(neg, body) :=
    match s with
    | String "-" r => (true, r)
    | String "+" r => (false, r)
    | _ => (false, s)
    end in
  match body with
  | EmptyString => Err ErrSyntax
  | _ => match digits_val body 0 with
         | None => Err ErrSyntax
         | Some z =>
             let v := if (neg : bool) then (- z)%Z else z in
             if is_int v then Ok v else Err ErrRange
         end
  end.

Definition hex_digit_upper (n : N) : ascii :=
  if (n <? 10)%N then ascii_of_N (48 + n) else ascii_of_N (55 + n).

(** net/url [shouldEscape(c, encodeQueryComponent)] is false exactly for
    letters, digits and [- _ . ~]. *)
Definition url_unreserved (a : ascii) : bool :=
  in_range "a" "z" a || in_range "A" "Z" a || in_range "0" "9" a ||
  Ascii.eqb a "-" || Ascii.eqb a "_" || Ascii.eqb a "." || Ascii.eqb a "~".

(** [url.QueryEscape] *)
Fixpoint query_escape (s : string) : string :=
  match s with
  | EmptyString => EmptyString
  | String a s' =>
      if Ascii.eqb a " " then String "+" (query_escape s')
      else if url_unreserved a then String a (query_escape s')
      else String "%" (String (hex_digit_upper (byte_of a / 16))
                              (String (hex_digit_upper (byte_of a mod 16)) (query_escape s')))
  end.

(** net/url [ishex]/[unhex] *)
Definition unhex (a : ascii) : option N :=
  if in_range "0" "9" a then Some (byte_of a - 48)%N
  else if in_range "a" "f" a then Some (byte_of a - 87)%N
  else if in_range "A" "F" a then Some (byte_of a - 55)%N
  else None.

(** [url.QueryUnescape]; [None] is the EscapeError for a '%' that is not followed
    by two hexadecimal digits. *)
Fixpoint query_unescape (s : string) : option string :=
  match s with
  | EmptyString => Some EmptyString
  | String a s' =>
      if Ascii.eqb a "%" then
        match s' with
        | String h (String l rest) =>
            match unhex h, unhex l with
            | Some x, Some y =>
                match query_unescape rest with
                | Some r => Some (String (ascii_of_N (16 * x + y)) r)
                | None => None
                end
            | _, _ => None
            end
        | _ => None
        end
      else
        match query_unescape s' with
        | Some r => Some (String (if Ascii.eqb a "+" then " "%char else a) r)
        | None => None
        end
  end.

(** ** link.go *)

(** /repo/link.go:34-38 *)
Record BOMLink := mkBOMLink {
  link_serialNumber : string;
  link_version      : Z;
  link_reference    : string
}.

(** The dynamic value of [elem interface{}] in NewBOMLink (/repo/link.go:46,58).
    Only the bom-ref of a linkable element is read. A typed nil pointer is a
    non-nil interface whose dereference panics. *)
Inductive elem : Type :=
| ElemNil                                   (* elem == nil *)
| ElemComponent (bomref : string)           (* Component *)
| ElemComponentPtr (bomref : option string) (* *Component, None = typed nil *)
| ElemService (bomref : string)
| ElemServicePtr (bomref : option string)
| ElemVulnerability (bomref : string)
| ElemVulnerabilityPtr (bomref : option string)
| ElemOther.                                (* any other type *)

Inductive link_err :=
| EInvalidSerial | EInvalidVersion | ENotLinkable | ENoBOMRef
| EInvalidLink | EParseVersion (e : atoi_err) | EUnescape.

(** A call either returns or panics. *)
Inductive outcome (A : Type) := Ret (a : A) | Panic.
Arguments Ret {A} a.
Arguments Panic {A}.

(** /repo/link.go:58-74: the type switch. *)
Definition elem_ref (e : elem) : outcome (result link_err string) :=
  match e with
  | ElemNil => Ret (Ok "")
  | ElemComponent r | ElemService r | ElemVulnerability r => Ret (Ok r)
  | ElemComponentPtr (Some r) | ElemServicePtr (Some r) | ElemVulnerabilityPtr (Some r) => Ret (Ok r)
  | ElemComponentPtr None | ElemServicePtr None | ElemVulnerabilityPtr None => Panic
  | ElemOther => Ret (Err ENotLinkable)
  end.

(** /repo/link.go:46-86 *)
Definition NewBOMLink (serial : string) (version : Z) (e : elem) : outcome (result link_err BOMLink) :=
  if negb (match_string serialNumberRegex serial) then Ret (Err EInvalidSerial)
  else if (version <? 1)%Z then Ret (Err EInvalidVersion)
  else match e with
       | ElemNil => Ret (Ok (mkBOMLink serial version ""))
       | _ =>
           match elem_ref e with
           | Panic => Panic
           | Ret (Err er) => Ret (Err er)
           | Ret (Ok ref) =>
               if str_eqb ref "" then Ret (Err ENoBOMRef)
               else Ret (Ok (mkBOMLink serial version ref))
           end
       end.

(** /repo/link.go:104-110 *)
Definition BOMLink_String (b : BOMLink) : string :=
  if str_eqb (link_reference b) ""
  then "urn:cdx:" ++ trim_prefix "urn:uuid:" (link_serialNumber b) ++ "/" ++ format_int (link_version b)
  else "urn:cdx:" ++ trim_prefix "urn:uuid:" (link_serialNumber b) ++ "/" ++ format_int (link_version b)
       ++ "#" ++ query_escape (link_reference b).

(** /repo/link.go:115-117 *)
Definition IsBOMLink (s : string) : bool := match_string bomLinkRegex s.

(** /repo/link.go:120-148. [len(matches) == 4] always holds for this regexp. *)
Definition ParseBOMLink (s : string) : result link_err BOMLink :=
  match find_submatch bomLinkRegex s with
  | None => Err EInvalidLink
  | Some g =>
      let serial := "urn:uuid:" ++ group 1 g in
      match atoi (group 2 g) with
      | Err e => Err (EParseVersion e)
      | Ok version =>
          match query_unescape (group 3 g) with
          | None => Err EUnescape
          | Some ref => Ok (mkBOMLink serial version ref)
          end
      end
  end.
