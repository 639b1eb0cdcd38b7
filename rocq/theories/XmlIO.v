(** XML encoders with their options and writers, decoders with their readers. *)
From Verif Require Import Base Types Consts Version Numbers GobModel ConvertModel JsonIO XmlModel XmlText.
Local Open Scope string_scope.

Inductive xml_error := XEncode (e : xerr) | XWrite (e : string) | XCopy (e : string).

(** What surrounds one call of Encode: how the writer behaves in its first, second, ...
    call of Write; where the buffer between encoding/xml and the writer (bufio.Writer) cuts
    the text into calls of Write; and, if the BOM cannot be encoded, what has been handed
    to the writer when this turns out. encoding/xml empties its buffer at every
    EncodeElement and whenever it is full, so all three are left open. *)
Record surroundings := mkSurroundings { behaves : nat -> writer; cuts : string -> list string; begun : list string }.
Definition whole (l : list string) : string := fold_right append "" l.
Definition fair (env : surroundings) : Prop := (forall n, honest (behaves env n)) /\ forall s, whole (cuts env s) = s.

(** bufio.Writer: after an error nothing more is written, and the error is what Flush
    returns. *)
Fixpoint write_all (w : nat -> writer) (n : nat) (l : list string) : list string * option string :=
  match l with
  | [] => ([], None)
  | p :: l' => match write_error (w n p) with
               | Some e => ([accepted (w n p)], Some e)
               | None => let (out, err) := write_all w (S n) l' in (accepted (w n p) :: out, err)
               end
  end.
(** /repo/encode.go:99-110: the header in one call of Write, then the element. *)
Definition xml_encode_to (env : surroundings) (r : result xerr string) : list string * option xml_error :=
  match write_error (behaves env 0 xml_header) with
  | Some e => ([accepted (behaves env 0 xml_header)], Some (XWrite e))
  | None =>
      let (out, err) := write_all (behaves env) 1 (match r with Ok t => cuts env t | Err _ => begun env end) in
      (accepted (behaves env 0 xml_header) :: out,
       match err, r with Some e, _ => Some (XWrite e) | None, Err e => Some (XEncode e) | None, Ok _ => None end)
  end.
(** The text after the header. *)
Definition xml_element_text (pretty : bool) (b : BOM) : result xerr string :=
  bind (bom_to_xml b) (fun els => Ok (concat_map (xml_text pretty 0) els)).

(** /repo/encode.go:95-97 *)
Record xml_encoder := mkXmlEncoder { xe_pretty : bool }.
(** /repo/encode.go:45-50 *)
Definition new_xml_encoder : xml_encoder := mkXmlEncoder false.
(** /repo/encode.go:99-134: one call; Encode and EncodeVersion have value receivers. *)
Definition xml_call (env : surroundings) (x : xml_encoder) (c : encoder_call) : xml_encoder * list string * option xml_error :=
  match c with
  | SetPretty p => (mkXmlEncoder p, [], None)
  | SetEscapeHTML _ => (x, [], None)
  | Encode b => let (out, err) := xml_encode_to env (xml_element_text (xe_pretty x) b) in (x, out, err)
  | EncodeVersion b sv =>
      match copyAndConvert sv b with
      | Err e => (x, [], Some (XCopy e))
      | Ok c => let (out, err) := xml_encode_to env (xml_element_text (xe_pretty x) c) in (x, out, err)
      end
  end.
Fixpoint xml_session (x : xml_encoder) (calls : list (encoder_call * surroundings)) : xml_encoder * list (list string * option xml_error) :=
  match calls with
  | [] => (x, [])
  | (c, env) :: calls' =>
      let '(x1, out, err) := xml_call env x c in
      let (x2, rest) := xml_session x1 calls' in (x2, (out, err) :: rest)
  end.

(** ** Decoders *)

(** The bytes that a reader has delivered so far, and whether it has come to an end. *)
Fixpoint delivered (ds : list delivery) : string * bool :=
  match ds with
  | [] => ("", false)
  | More p :: ds' => let (s, e) := delivered ds' in (p ++ s, e)
  | Last p :: _ | Broken p _ :: _ => (p, true)
  end.
(** /repo/decode.go:58-72. encoding/xml reads through a buffer and takes the bytes before
    it looks at the error that came with them; it stops at the end of the root element.
    [None]: the decoder is still waiting for bytes. Simplified: malformed input is reported
    when the reader has come to its end, not as soon as it is seen; reader errors and
    syntax errors are not told apart. *)
Definition xml_decode (entries : list (SpecVersion * string)) (ds : list delivery) (b : BOM) : option (result xml_decode_error BOM) :=
  match delivered ds with
  | (s, ended) => match xml_parse s with
                  | Some _ => Some (xml_unmarshal entries s b)
                  | None => if ended then Some (Err XSyntax) else None
                  end
  end.
