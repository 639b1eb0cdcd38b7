(** Encoders with their options and writers, decoders with their readers, for JSON. *)
From Verif Require Import Base Types Consts Version Numbers Utf8 GobModel ConvertModel JsonModel JsonText.
Local Open Scope string_scope.

(** ** Writers *)

(** What a writer does with one Write(p): the bytes it took and its error. The contract
    of io.Writer: without an error it took all of them. *)
Record write_result := mkWriteResult { accepted : string; write_error : option string }.
Definition writer := string -> write_result.
Definition honest (w : writer) : Prop :=
  forall p, (write_error (w p) = None -> accepted (w p) = p) /\ exists rest, p = accepted (w p) ++ rest.

Inductive encode_error := EEncode (e : json_encode_err) | EWrite (e : string).

(** encoding/json stream.go Encoder.Encode: the value is marshalled into a buffer, which
    is handed to the writer in one call. The first part of the result are the calls the
    writer got, with what it took. *)
Definition encode_to (w : writer) (r : result json_encode_err string) : list string * option encode_error :=
  match r with
  | Err e => ([], Some (EEncode e))
  | Ok t => ([accepted (w t)], match write_error (w t) with Some e => Some (EWrite e) | None => None end)
  end.

(** ** Encoders *)

(** /repo/encode.go:52-56 *)
Record json_encoder := mkJsonEncoder { je_pretty : bool; je_escape : bool }.
(** /repo/encode.go:45-47 *)
Definition new_json_encoder : json_encoder := mkJsonEncoder false true.

Inductive encoder_call :=
| SetPretty (pretty : bool)
| SetEscapeHTML (escape : bool)
| Encode (b : BOM)
| EncodeVersion (b : BOM) (sv : SpecVersion).

(** /repo/encode.go:59-93: one call; Encode and EncodeVersion have value receivers. *)
Definition json_call (w : writer) (j : json_encoder) (c : encoder_call) : json_encoder * list string * option encode_error :=
  match c with
  | SetPretty p => (mkJsonEncoder p (je_escape j), [], None)
  | SetEscapeHTML e => (mkJsonEncoder (je_pretty j) e, [], None)
  | Encode b => let (out, err) := encode_to w (json_encode_text (je_pretty j) (je_escape j) b) in (j, out, err)
  | EncodeVersion b sv => let (out, err) := encode_to w (json_encode_version_text (je_pretty j) (je_escape j) sv b) in (j, out, err)
  end.
(** A history of calls, the n-th with the n-th writer behaviour (a writer may start to
    fail at any time); the outcome of every call. *)
Fixpoint json_session (j : json_encoder) (calls : list (encoder_call * writer)) : json_encoder * list (list string * option encode_error) :=
  match calls with
  | [] => (j, [])
  | (c, w) :: calls' =>
      let '(j1, out, err) := json_call w j c in
      let (j2, rest) := json_session j1 calls' in (j2, (out, err) :: rest)
  end.

(** ** Readers *)

(** What one Read returns: bytes, and perhaps that this was the end or an error. *)
Inductive delivery :=
| More (p : string)
| Last (p : string)
| Broken (p : string) (e : string).

(** io.ReadAll; [None]: the reader has not come to an end yet. The sizes of the buffers
    that ReadAll offers are left to the reader. *)
Fixpoint read_all (sofar : string) (ds : list delivery) : option (result string string) :=
  match ds with
  | [] => None
  | More p :: ds' => read_all (sofar ++ p) ds'
  | Last p :: _ => Some (Ok (sofar ++ p))
  | Broken _ e :: _ => Some (Err e)
  end.

Inductive decode_error := ERead (e : string) | EUnmarshal (e : jerr).
(** /repo/decode.go:45-51. Simplified: what json.Unmarshal has changed in [b] when it
    fails is not modelled. *)
Definition json_decode (ds : list delivery) (b : BOM) : option (result decode_error BOM) :=
  match read_all "" ds with
  | None => None
  | Some (Err e) => Some (Err (ERead e))
  | Some (Ok s) => Some (match unmarshal_bom s b with Ok c => Ok c | Err e => Err (EUnmarshal e) end)
  end.
