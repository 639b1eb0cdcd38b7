(** What a document says, and that another one says it too: the specification for C44. *)
From Verif Require Import Base LinkModel Numbers GobModel JsonModel.
Local Open Scope string_scope.

(** Says nothing: null, an empty string, false, zero, an empty list, or an object of such *)
Inductive silent : json -> Prop :=
| si_null : silent JNull
| si_str : silent (JStr "")
| si_bool : silent (JBool false)
| si_num single lit f : parse_float single lit = Some f -> float_is_zero f = true -> silent (JNum lit)
| si_arr : silent (JArr [])
| si_obj ms : (forall k j, In (k, j) ms -> silent j) -> silent (JObj ms).

(** [said j' j]: whatever [j'] says, [j] says at the same place. Strings and booleans are the
    same, numbers have the same value, as an integer or as a float of one of the two sizes;
    lists have the same length and order. Names of members are compared as encoding/json
    does, without regard to case ([fold_name]). *)
Inductive said : json -> json -> Prop :=
| said_nothing j' j : silent j' -> said j' j
| said_str s : said (JStr s) (JStr s)
| said_bool b : said (JBool b) (JBool b)
| said_int lit' lit z : atoi lit' = Ok z -> atoi lit = Ok z -> said (JNum lit') (JNum lit)
| said_num single lit' lit f : parse_float single lit' = Some f -> parse_float single lit = Some f -> said (JNum lit') (JNum lit)
| said_arr l' l : Forall2 said l' l -> said (JArr l') (JArr l)
| said_obj ms' ms : (forall k' j', In (k', j') ms' -> silent j' \/ exists k j, In (k, j) ms /\ fold_name k = fold_name k' /\ said j' j) -> said (JObj ms') (JObj ms).
