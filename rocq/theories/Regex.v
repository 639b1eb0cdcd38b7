(** The subset of Go's [regexp] package that cyclonedx-go uses.

    [regexp.MustCompile] is modelled by [parse_re] (the regexp literal is kept
    verbatim as a string), matching by a backtracking matcher with Perl
    (leftmost-first, greedy) priorities, which is the semantics Go documents for
    [MatchString] and [FindStringSubmatch].

    Simplification: Go matches runes, the model matches bytes. Every class used
    consists of ASCII characters only, so a multi-byte or invalid sequence never
    matches in either.  Repetition operators are supported on character classes
    only, [?] on groups only; [parse_re] returns [None] on anything else. *)
From Verif Require Import Base.
Local Open Scope string_scope.

Definition cls := list (ascii * ascii).     (* union of inclusive ranges *)

Inductive re : Type :=
| RCls  (c : cls)
| RStar (c : cls)                 (* [...]*   greedy *)
| RRep  (n : nat) (c : cls)       (* [...]{n} *)
| RSeq  (r1 r2 : re)
| REps
| ROpt  (r : re)                  (* (...)?   greedy *)
| RGrp  (i : nat) (r : re)        (* i-th capturing group *)
| RBegin                          (* ^ *)
| REnd.                           (* $ without (?m): end of text only *)

Definition in_cls (c : cls) (a : ascii) : bool :=
  existsb (fun r => in_range (fst r) (snd r) a) c.

Definition caps := list (nat * string).    (* most recent first *)

Fixpoint take (n : nat) (s : string) : string :=
  match n, s with
  | O, _ => EmptyString
  | S n', String a s' => String a (take n' s')
  | S _, EmptyString => EmptyString
  end.

(** The text between two positions, positions being suffixes of the input. *)
Definition between (s s' : string) : string :=
  take (String.length s - String.length s') s.

Fixpoint match_star (c : cls) (s : string) (k : string -> option caps) : option caps :=
  match s with
  | String a s' =>
      if in_cls c a
      then match match_star c s' k with Some r => Some r | None => k s end
      else k s
  | EmptyString => k s
  end.

Fixpoint match_rep (n : nat) (c : cls) (s : string) : option string :=
  match n, s with
  | O, _ => Some s
  | S n', String a s' => if in_cls c a then match_rep n' c s' else None
  | S _, EmptyString => None
  end.

(** [mtch full r s g k]: match [r] at the suffix [s] of [full] with captures [g],
    continue with [k]. *)
Fixpoint mtch (full : string) (r : re) (s : string) (g : caps)
         (k : string -> caps -> option caps) {struct r} : option caps :=
  match r with
  | RCls c =>
      match s with
      | String a s' => if in_cls c a then k s' g else None
      | EmptyString => None
      end
  | RStar c => match_star c s (fun s' => k s' g)
  | RRep n c => match match_rep n c s with Some s' => k s' g | None => None end
  | RSeq r1 r2 => mtch full r1 s g (fun s1 g1 => mtch full r2 s1 g1 k)
  | REps => k s g
  | ROpt r1 => match mtch full r1 s g k with Some x => Some x | None => k s g end
  | RGrp i r1 => mtch full r1 s g (fun s' g' => k s' ((i, between s s') :: g'))
  | RBegin => if Nat.eqb (String.length s) (String.length full) then k s g else None
  | REnd => match s with EmptyString => k s g | _ => None end
  end.

(** Unanchored search: leftmost start first. *)
Fixpoint search (full : string) (r : re) (s : string) : option caps :=
  match mtch full r s [] (fun s' g => Some ((0, between s s') :: g)) with
  | Some g => Some g
  | None => match s with
            | EmptyString => None
            | String _ s' => search full r s'
            end
  end.

(** [re.FindStringSubmatch(s)]: captures by group number. *)
Definition find_submatch (r : re) (s : string) : option caps := search s r s.

(** [re.MatchString(s)] *)
Definition match_string (r : re) (s : string) : bool :=
  match find_submatch r s with Some _ => true | None => false end.

(** [matches[i]]; an unmatched group is the empty string. *)
Fixpoint group (i : nat) (g : caps) : string :=
  match g with
  | [] => EmptyString
  | (j, t) :: g' => if Nat.eqb i j then t else group i g'
  end.

(** ** Parsing regexp literals *)

Definition digit_cls : cls := [("0"%char, "9"%char)].

(** Inside [...]: items are escapes, ranges or single characters. *)
Fixpoint parse_cls (fuel : nat) (s : string) : option (cls * string) :=
  match fuel with
  | O => None
  | S f =>
      match s with
      | String "]" rest => Some ([], rest)
      | String "\" (String "d" rest) =>
          match parse_cls f rest with
          | Some (c, r) => Some (digit_cls ++ c, r)%list
          | None => None
          end
      | String "\" (String a rest) =>
          match parse_cls f rest with
          | Some (c, r) => Some ((a, a) :: c, r)
          | None => None
          end
      | String a (String "-" (String b rest)) =>
          if Ascii.eqb b "]" then None else
          match parse_cls f rest with
          | Some (c, r) => Some ((a, b) :: c, r)
          | None => None
          end
      | String a rest =>
          match parse_cls f rest with
          | Some (c, r) => Some ((a, a) :: c, r)
          | None => None
          end
      | EmptyString => None
      end
  end.

Definition digit_val (a : ascii) : option nat :=
  if in_range "0" "9" a then Some (N.to_nat (byte_of a - 48)) else None.

Fixpoint parse_nat (s : string) (acc : nat) : nat * string :=
  match s with
  | String a s' =>
      match digit_val a with
      | Some d => parse_nat s' (10 * acc + d)
      | None => (acc, s)
      end
  | EmptyString => (acc, s)
  end.

(** Skip a group name up to and including '>'. *)
Fixpoint skip_name (s : string) : option string :=
  match s with
  | String ">" rest => Some rest
  | String _ rest => skip_name rest
  | EmptyString => None
  end.

(** A repetition operator after a character class. *)
Definition parse_post (c : cls) (s : string) : option (re * string) :=
  match s with
  | String "*" rest => Some (RStar c, rest)
  | String "+" rest => Some (RSeq (RCls c) (RStar c), rest)
  | String "{" rest =>
      let (n, r) := parse_nat rest 0 in
      match r with
      | String "}" r' => Some (RRep n c, r')
      | _ => None
      end
  | _ => Some (RCls c, s)
  end.

(** [parse_seq fuel n s]: parse up to the closing parenthesis or the end; [n] is
    the number of capturing groups opened so far. Returns the regexp, the new
    group count and the rest (starting after the parenthesis); the flag says
    whether a closing parenthesis was consumed. *)
Fixpoint parse_seq (fuel n : nat) (s : string) : option (re * nat * bool * string) :=
  match fuel with
  | O => None
  | S f =>
      let continue r n rest :=
        match parse_seq f n rest with
        | Some (r2, n2, b, rest2) => Some (RSeq r r2, n2, b, rest2)
        | None => None
        end in
      let group r n rest :=
        match rest with
        | String "?" rest' => continue (ROpt r) n rest'
        | _ => continue r n rest
        end in
      match s with
      | EmptyString => Some (REps, n, false, EmptyString)
      | String ")" rest => Some (REps, n, true, rest)
      | String "^" rest => continue RBegin n rest
      | String "$" rest => continue REnd n rest
      | String "(" (String "?" (String ":" rest)) =>
          match parse_seq f n rest with
          | Some (r, n', true, rest') => group r n' rest'
          | _ => None
          end
      | String "(" (String "?" (String "P" (String "<" rest))) =>
          match skip_name rest with
          | Some rest1 =>
              match parse_seq f (S n) rest1 with
              | Some (r, n', true, rest') => group (RGrp (S n) r) n' rest'
              | _ => None
              end
          | None => None
          end
      | String "[" rest =>
          match parse_cls f rest with
          | Some (c, rest1) =>
              match parse_post c rest1 with
              | Some (r, rest2) => continue r n rest2
              | None => None
              end
          | None => None
          end
      | String "\" (String "d" rest) =>
          match parse_post digit_cls rest with
          | Some (r, rest2) => continue r n rest2
          | None => None
          end
      | String a rest =>
          match parse_post [(a, a)] rest with
          | Some (r, rest2) => continue r n rest2
          | None => None
          end
      end
  end.

Definition parse_re (s : string) : option re :=
  match parse_seq (S (String.length s)) 0 s with
  | Some (r, _, false, EmptyString) => Some r
  | _ => None
  end.

(** [regexp.MustCompile]: panics (here: a regexp matching nothing is never used;
    the literals in the code are shown to parse) on failure. *)
Definition must_compile (s : string) : re :=
  match parse_re s with
  | Some r => r
  | None => RCls []
  end.
