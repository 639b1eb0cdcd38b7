(** JSON schemas, as far as the decoder depends on them, and the documents that conform to
    them: the specification for C42. It does not mention the decoder. The schemas themselves
    are in Schemas.v, translated by tools/gen_schema.py. *)
From Verif Require Import Base Wt LinkModel Numbers GobModel JsonModel.
Local Open Scope string_scope.

(** A node of a schema. Keywords that only narrow a node are left out (pattern,
    format, bounds, oneOf that only says which members are required, not, if), so that
    more documents conform than the official schema allows. In three places the translation
    is narrower: a node with properties but no type is an object, an object that does not
    mention additionalProperties has no other members, and a public key of a signature has
    the members of its three forms. *)
Inductive schema :=
| Text                                  (* "type": "string" *)
| Filled                                (* "type": "string", "minLength": 1 *)
| Words (l : list string)               (* "enum" *)
| Whole                                 (* "type": "integer" *)
| Number                                (* "type": "number" *)
| Truth                                 (* "type": "boolean" *)
| ListOf (s : schema)                   (* "type": "array", "items" *)
| Object (ms : list (string * schema)) (required : list string)  (* "properties", without other members *)
| Ref (n : string)                      (* "$ref": "#/definitions/n"; "" is the whole schema *)
| OneOf (l : list schema)               (* "oneOf", "anyOf" *)
| Anything.                             (* {} *)
Definition schemas := list (string * schema).

(** A number that a float32 (and so a float64) can hold: not beyond its range *)
Definition holdable (lit : string) : Prop := json_number lit = true /\ forall single, exists f, parse_float single lit = Some f.

(** [conforms defs s j]: the document [j] conforms to [s]. Integers are written without
    fraction and exponent and fit in 64 bits. *)
Inductive conforms (defs : schemas) : schema -> json -> Prop :=
| co_text s : conforms defs Text (JStr s)
| co_filled s : s <> "" -> conforms defs Filled (JStr s)
| co_words l s : In s l -> conforms defs (Words l) (JStr s)
| co_whole z : is_int z = true -> conforms defs Whole (JNum (format_int z))
| co_number lit : holdable lit -> conforms defs Number (JNum lit)
| co_truth b : conforms defs Truth (JBool b)
| co_list s l : (forall j, In j l -> conforms defs s j) -> conforms defs (ListOf s) (JArr l)
| co_object ms required l : (forall k j, In (k, j) l -> In k (map fst ms)) -> (forall k j s, In (k, j) l -> assoc k ms = Some s -> conforms defs s j) ->
    (forall k, In k required -> In k (map fst l)) -> conforms defs (Object ms required) (JObj l)
| co_ref n s j : assoc n defs = Some s -> conforms defs s j -> conforms defs (Ref n) j
| co_one l s j : In s l -> conforms defs s j -> conforms defs (OneOf l) j
| co_any j : conforms defs Anything j.

(** To state exceptions: another schema at one place. A place is a definition and the names
    of members on the way; "[]" stands for the items of a list. *)
Fixpoint put (path : list string) (new s : schema) : schema :=
  match path with
  | [] => new
  | p :: path' =>
      match s with
      | ListOf s' => if String.eqb p "[]" then ListOf (put path' new s') else s
      | Object ms r => Object (map (fun m => if String.eqb (fst m) p then (fst m, put path' new (snd m)) else m) ms) r
      | _ => s
      end
  end.
Definition amend (def : string) (path : list string) (new : schema) (d : schemas) : schemas :=
  map (fun m => if String.eqb (fst m) def then (fst m, put path new (snd m)) else m) d.

(** ** What a document says (for C43) *)

(** Says nothing: an empty string, false, zero, an empty list, or an object of such *)
Inductive blank : json -> Prop :=
| bl_str : blank (JStr "")
| bl_bool : blank (JBool false)
| bl_num single lit f : parse_float single lit = Some f -> float_is_zero f = true -> blank (JNum lit)
| bl_arr : blank (JArr [])
| bl_obj ms : (forall k j, In (k, j) ms -> blank j) -> blank (JObj ms).
(** [kept j j']: what [j] says, [j'] says, at the same place. Strings and booleans are the
    same, numbers have the same value, lists have the same length and the same order. A member
    may be missing if it says nothing. (A list of names may have an object instead of an empty
    name.) *)
Inductive kept : json -> json -> Prop :=
| kept_str s : kept (JStr s) (JStr s)
| kept_bool b : kept (JBool b) (JBool b)
| kept_whole lit : kept (JNum lit) (JNum lit)
| kept_num single lit lit' f : parse_float single lit = Some f -> parse_float single lit' = Some f -> kept (JNum lit) (JNum lit')
| kept_arr l l' : Forall2 kept l l' -> kept (JArr l) (JArr l')
| kept_obj ms ms' : (forall k j, In (k, j) ms -> blank j \/ exists j', In (k, j') ms' /\ kept j j') -> kept (JObj ms) (JObj ms')
| kept_unnamed : kept (JStr "") (JObj []).
