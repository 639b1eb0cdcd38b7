(** Property theorems C20-C23: BOM links (/repo/link.go). Statements only. *)
From Verif Require Import Base LinkModel LinkSpec LinkProofs.
Local Open Scope string_scope.

(** C20: the text of every link that NewBOMLink builds parses back to that link. *)
Theorem C20_link_roundtrip : forall serial version e l,
  is_int version = true ->
  NewBOMLink serial version e = Ret (Ok l) ->
  ParseBOMLink (BOMLink_String l) = Ok l.
Proof. exact new_roundtrip. Qed.
Print Assumptions C20_link_roundtrip.

Theorem C20_link_text_injective : forall s1 v1 e1 l1 s2 v2 e2 l2,
  is_int v1 = true -> is_int v2 = true ->
  NewBOMLink s1 v1 e1 = Ret (Ok l1) -> NewBOMLink s2 v2 e2 = Ret (Ok l2) ->
  BOMLink_String l1 = BOMLink_String l2 -> l1 = l2.
Proof. exact new_string_inj. Qed.
Print Assumptions C20_link_text_injective.

Definition ex_serial := "urn:uuid:3e671687-395b-41f5-a30f-a58921a69b79".
Example C20_nonvacuous :
  exists l, is_int 42 = true /\ NewBOMLink ex_serial 42 (ElemService "pkg:npm/a b@1?x=%20#y") = Ret (Ok l) /\
            BOMLink_String l = "urn:cdx:3e671687-395b-41f5-a30f-a58921a69b79/42#pkg%3Anpm%2Fa+b%401%3Fx%3D%2520%23y".
Proof. eexists. split; [reflexivity|]. split; vm_compute; reflexivity. Qed.

(** C21: IsBOMLink accepts exactly the BOM-Link grammar. *)
Theorem C21_is_bom_link_grammar : forall s,
  IsBOMLink s = true <-> exists u ver ref, link_text s u ver ref.
Proof. exact is_bom_link_iff. Qed.
Print Assumptions C21_is_bom_link_grammar.

(** C21: ParseBOMLink accepts exactly the grammatical links whose version fits an
    int and whose reference is well percent-encoded, and returns the parts. *)
Theorem C21_parse_exact : forall s l,
  ParseBOMLink s = Ok l <->
  exists u v r, link_text s u v r /\ (decimal_value v <= max_int)%Z /\
    link_serialNumber l = "urn:uuid:" ++ u /\ link_version l = decimal_value v /\
    match r with
    | None => link_reference l = ""
    | Some t => percent t (link_reference l)
    end.
Proof. exact parse_grammar_iff. Qed.
Print Assumptions C21_parse_exact.

Example C21_nonvacuous :
  IsBOMLink "urn:cdx:3e671687-395b-41f5-a30f-a58921a69b79/1#a%2Fb" = true /\
  IsBOMLink "urn:cdx:3e671687-395b-41f5-a30f-a58921a69b79/0" = false /\
  IsBOMLink "urn:cdx:3E671687-395b-41f5-a30f-a58921a69b79/1" = false /\
  ParseBOMLink "urn:cdx:3e671687-395b-41f5-a30f-a58921a69b79/1#a%2Fb" = Ok (mkBOMLink ex_serial 1 "a/b").
Proof. vm_compute. auto. Qed.

(** C21: IsBOMLink and ParseBOMLink disagree: a grammatical link may not parse. *)
Theorem C21_is_link_but_unparsable_refuted :
  exists s e, IsBOMLink s = true /\ ParseBOMLink s = Err e.
Proof. exists "urn:cdx:3e671687-395b-41f5-a30f-a58921a69b79/1#%zz", EUnescape. vm_compute. auto. Qed.
Print Assumptions C21_is_link_but_unparsable_refuted.

(** C22: NewBOMLink accepts exactly valid serials, positive versions and nil or
    linkable elements that carry a bom-ref, and stores them unchanged. *)
Theorem C22_new_link_accepts : forall serial version e l,
  NewBOMLink serial version e = Ret (Ok l) <->
  valid_serial serial /\ (1 <= version)%Z /\
  exists ref, l = mkBOMLink serial version ref /\
    ((e = ElemNil /\ ref = "") \/ (elem_bomref e = Some ref /\ ref <> "")).
Proof. exact new_link_iff. Qed.
Print Assumptions C22_new_link_accepts.

Theorem C22_new_link_rejects : forall serial version e er,
  NewBOMLink serial version e = Ret (Err er) <->
  (er = EInvalidSerial /\ ~ valid_serial serial) \/
  (er = EInvalidVersion /\ valid_serial serial /\ (version < 1)%Z) \/
  (er = ENotLinkable /\ valid_serial serial /\ (1 <= version)%Z /\ e = ElemOther) \/
  (er = ENoBOMRef /\ valid_serial serial /\ (1 <= version)%Z /\ elem_bomref e = Some "").
Proof. exact new_err_class. Qed.
Print Assumptions C22_new_link_rejects.

(** C22/C32: the only panic is a typed nil pointer passed as the element. *)
Theorem C22_new_link_panics : forall serial version e,
  NewBOMLink serial version e = Panic <-> valid_serial serial /\ (1 <= version)%Z /\ typed_nil e.
Proof. exact new_panic_iff. Qed.
Print Assumptions C22_new_link_panics.

Example C22_nonvacuous :
  NewBOMLink ex_serial 1 ElemNil = Ret (Ok (mkBOMLink ex_serial 1 "")) /\
  NewBOMLink ex_serial 1 (ElemComponent "r") = Ret (Ok (mkBOMLink ex_serial 1 "r")) /\
  NewBOMLink ex_serial 0 ElemNil = Ret (Err EInvalidVersion) /\
  NewBOMLink "urn:uuid:x" 1 ElemNil = Ret (Err EInvalidSerial) /\
  NewBOMLink ex_serial 1 (ElemVulnerabilityPtr (Some "")) = Ret (Err ENoBOMRef) /\
  NewBOMLink ex_serial 1 (ElemServicePtr None) = Panic.
Proof. vm_compute. auto 10. Qed.

(** C23: every parsed link is one NewBOMLink could have built ... *)
Theorem C23_parsed_valid : forall s l,
  ParseBOMLink s = Ok l ->
  exists e, NewBOMLink (link_serialNumber l) (link_version l) e = Ret (Ok l).
Proof. exact parse_constructible. Qed.
Print Assumptions C23_parsed_valid.

(** ... whose text differs from the input only in the escaping of the reference ... *)
Theorem C23_parsed_canonical : forall s l,
  ParseBOMLink s = Ok l ->
  exists u v r, link_text s u v r /\
    link_text (BOMLink_String l) u v (option_map (fun _ => query_escape (link_reference l)) r).
Proof. exact parse_canonical. Qed.
Print Assumptions C23_parsed_canonical.

(** ... and parses to the same link again. *)
Theorem C23_reparse : forall s l, ParseBOMLink s = Ok l -> ParseBOMLink (BOMLink_String l) = Ok l.
Proof. exact parse_reencode. Qed.
Print Assumptions C23_reparse.

(** Without a reference the text is reproduced exactly. *)
Theorem C23_plain_identity : forall s u v l,
  link_text s u v None -> ParseBOMLink s = Ok l -> BOMLink_String l = s.
Proof. exact parse_plain_identity. Qed.
Print Assumptions C23_plain_identity.

Example C23_nonvacuous :
  exists l, ParseBOMLink "urn:cdx:3e671687-395b-41f5-a30f-a58921a69b79/7#a/b+c" = Ok l /\
            BOMLink_String l = "urn:cdx:3e671687-395b-41f5-a30f-a58921a69b79/7#a%2Fb+c".
Proof. eexists. split; vm_compute; reflexivity. Qed.
