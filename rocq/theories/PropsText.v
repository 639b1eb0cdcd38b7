(** Property theorems for JSON texts, encoder options, writers and readers: C16, C18, C25,
    C26, C27, C28, C29, C34, C35 on bytes. [unmarshal_bom s zero_BOM] is json.Unmarshal of the bytes
    [s] into a fresh BOM; [json_encode_text pretty esc b] are the bytes Encode(b) hands to
    the writer with these options. *)
From Verif Require Import Base Types Univ TypeTable Wt Reify Consts LinkModel Version ConvertModel ConvertSpec ConvertReach ConvertPropProofs Numbers Utf8 GobModel GobSpec GobProofs
  JsonModel JsonBack JsonSpec JsonRound JsonErrors JsonOut JsonBom JsonChoices ExampleBom JsonText JsonTextProofs JsonTextRound JsonTextBom JsonIO JsonTextMore PropsJson.
From Coq Require Import Lia.
Local Open Scope string_scope.
Local Open Scope Z_scope.

(** ** C27: the text parses back *)

(** Of every document tree whose numbers are JSON numbers and whose keys need no escapes,
    in both layouts and with any escaping in any part. *)
Theorem C27_parses : forall pretty o t, good_out o -> encode_text pretty o = Ok t -> parse t = Some (erase o).
Proof.
  intros pretty o t G. unfold encode_text. destruct (pretty && too_deep (erase o))%bool; [discriminate|]. intros [= <-]. apply parse_text, G.
Qed.
(** Of every BOM. *)
Theorem C27_bom_parses : forall pretty esc b t, json_encode_text pretty esc b = Ok t -> exists o, json_encode esc b = Ok o /\ parse t = Some (erase o).
Proof. intros pretty esc b t E. apply text_inv in E as (o & E & _ & _ & P & _). exists o. auto. Qed.
(** With HTML escaping none of the three characters occurs. *)
Theorem C27_no_html : forall pretty b t, json_encode_text pretty true b = Ok t ->
  has_byte "<" t = false /\ has_byte ">" t = false /\ has_byte "&" t = false.
Proof.
  intros pretty b t E. apply text_inv in E as (o & E & G & -> & _). apply encode_writes in E as (E & _). rewrite bom_to_json_eq in E.
  pose proof (text_no_html o G (written_escaped _ _ _ E) pretty 0%nat) as N. revert N. generalize (text pretty 0 o). intros s N.
  assert (H : forall a, In a ["<"; ">"; "&"]%char -> has_byte a (s ++ String newline "") = false).
  { intros a I. rewrite has_byte_app. replace (has_byte a (String newline "")) with false by (cbn in I; intuition (subst; reflexivity)). rewrite orb_false_r.
    clear E. induction s as [|c s IH]; [reflexivity|]. destruct N as (A & B). cbn [has_byte]. rewrite (IH B), orb_false_r.
    apply Ascii.eqb_neq. intros <-. cbn in I. intuition (subst; discriminate). }
  repeat split; apply H; cbn; auto.
Qed.
(** The bytes are valid UTF-8 whatever bytes the strings of the BOM hold; the compact form
    is a single line. *)
Theorem C27_utf8 : forall pretty esc b t, json_encode_text pretty esc b = Ok t -> utf8 t.
Proof. intros pretty esc b t E. apply text_inv in E as (o & _ & G & -> & _). apply utf8_app; [apply text_utf8, G|]. apply utf8_1; [reflexivity|constructor]. Qed.
Theorem C27_one_line : forall esc b t, json_encode_text false esc b = Ok t -> exists s, t = s ++ String newline "" /\ has_byte newline s = false.
Proof. intros esc b t E. apply text_inv in E as (o & _ & G & -> & _). eexists. split; [reflexivity|]. apply text_one_line, G. Qed.

Definition shown (pretty esc : bool) (b : BOM) : string := match json_encode_text pretty esc b with Ok t => t | Err _ => "" end.
Definition odd_bom : BOM := set_BOM_SerialNumber "<a>&""\" ex_json.
Example C27_nonvacuous : json_encode_text true true odd_bom = Ok (shown true true odd_bom) /\ has_byte backslash (shown true true odd_bom) = true /\
  unmarshal_bom (shown true true odd_bom) zero_BOM = Ok odd_bom.
Proof. repeat split; vm_compute; reflexivity. Qed.

(** ** C26: options *)

(** The last call that sets an option decides; without one the default does. *)
Theorem C26_pretty : forall before after v w,
  (forall p w', ~ In (SetPretty p, w') after) ->
  je_pretty (fst (json_session new_json_encoder (before ++ (SetPretty v, w) :: after))) = v.
Proof. exact last_pretty. Qed.
Theorem C26_escape : forall before after v w,
  (forall p w', ~ In (SetEscapeHTML p, w') after) ->
  je_escape (fst (json_session new_json_encoder (before ++ (SetEscapeHTML v, w) :: after))) = v.
Proof. exact last_escape. Qed.
Theorem C26_defaults : forall calls,
  ((forall p w, ~ In (SetPretty p, w) calls) -> je_pretty (fst (json_session new_json_encoder calls)) = false) /\
  ((forall p w, ~ In (SetEscapeHTML p, w) calls) -> je_escape (fst (json_session new_json_encoder calls)) = true).
Proof. intros calls. split; intros N; [rewrite keeps_pretty by exact N|rewrite keeps_escape by exact N]; reflexivity. Qed.
(** After any history, Encode hands the writer the document for the options in force. *)
Theorem C26_encode : forall calls b w j outs, json_session new_json_encoder calls = (j, outs) ->
  json_session new_json_encoder (calls ++ [(Encode b, w)]) =
  (j, (outs ++ [encode_to w (json_encode_text (je_pretty j) (je_escape j) b)])%list).
Proof.
  intros calls b w j outs E. rewrite session_app, E. cbn [json_session json_call]. destruct (encode_to w _) as [out err]. reflexivity.
Qed.
Theorem C26_encode_version : forall calls b sv w j outs, json_session new_json_encoder calls = (j, outs) ->
  json_session new_json_encoder (calls ++ [(EncodeVersion b sv, w)]) =
  (j, (outs ++ [encode_to w (json_encode_version_text (je_pretty j) (je_escape j) sv b)])%list).
Proof.
  intros calls b sv w j outs E. rewrite session_app, E. cbn [json_session json_call]. destruct (encode_to w _) as [out err]. reflexivity.
Qed.
(** Documents of one BOM under any two settings decode alike, into any BOM. *)
Theorem C26_same_bom : forall p1 e1 p2 e2 b t1 t2 c, json_encode_text p1 e1 b = Ok t1 -> json_encode_text p2 e2 b = Ok t2 ->
  unmarshal_bom t1 c = unmarshal_bom t2 c.
Proof. intros p1 e1 p2 e2 b t1 t2 c E1 E2. unfold unmarshal_bom. rewrite (options_alike _ _ _ _ _ _ _ E1 E2). reflexivity. Qed.
(** Whether a BOM can be encoded does not depend on the options, unless it is nested more
    deeply than package json indents. *)
Theorem C26_same_failure_partial : forall p1 e1 p2 e2 b, (nesting (reify_BOM b) <= max_depth)%N ->
  (exists t, json_encode_text p1 e1 b = Ok t) -> exists t, json_encode_text p2 e2 b = Ok t.
Proof.
  intros p1 e1 p2 e2 b N (t & E). apply text_inv in E as (o & E & _). pose proof (encode_alike e1 e2 b) as H. rewrite E in H. unfold json_encode_text.
  destruct (json_encode e2 b) as [o'|] eqn:E'; [|contradiction]. pose proof (C16_depth e2 b o' E' N) as D. unfold encode_text. rewrite D, andb_false_r. eexists. reflexivity.
Qed.
(** Beyond that, it can be encoded only without indentation. *)
Theorem C26_same_failure_refuted : exists b t, json_encode_text false true b = Ok t /\ json_encode_text true true b = Err (EMarshal ETooDeep).
Proof.
  assert (H : after_encoding (fun o => too_deep (erase o)) (json_encode true b_deep) = Some true) by (vm_compute; reflexivity).
  exists b_deep. unfold json_encode_text. destruct (json_encode true b_deep) as [o|]; [|discriminate]. injection H as H. eexists. split; [unfold encode_text; cbn [andb]; reflexivity|].
  unfold encode_text. rewrite H. reflexivity.
Qed.
Example C26_nonvacuous : json_encode_text false true odd_bom = Ok (shown false true odd_bom) /\ json_encode_text true false odd_bom = Ok (shown true false odd_bom) /\
  has_byte "<" (shown false true odd_bom) = false /\ has_byte "<" (shown true false odd_bom) = true /\ unmarshal_bom (shown false true odd_bom) zero_BOM = Ok odd_bom.
Proof. repeat split; vm_compute; reflexivity. Qed.
(** SetEscapeHTML(false) does not reach into types with a MarshalJSON of their own. *)
Definition b_html : BOM := with_component (set_Component_Licenses (list_of [set_LicenseChoice_License (Some (set_License_Name "<" zero_License)) zero_LicenseChoice]) zero_Component).
Definition b_named : BOM := with_component (set_Component_Name "<" zero_Component).
Theorem C26_escape_refuted :
  json_encode_text false false b_html = Ok (shown false false b_html) /\ has_byte "<" (shown false false b_html) = false /\
  json_encode_text false false b_named = Ok (shown false false b_named) /\ has_byte "<" (shown false false b_named) = true.
Proof. repeat split; vm_compute; reflexivity. Qed.

(** ** C28: reading *)

(** Decoding depends on nothing but the bytes that the reader delivers before it ends. *)
Theorem C28_chunks : forall ds ds' b, ending ds = Some None -> ending ds' = Some None -> bytes_of ds = bytes_of ds' -> json_decode ds b = json_decode ds' b.
Proof. intros ds ds' b E E' B. unfold json_decode. rewrite !read_all_spec, E, E', B. reflexivity. Qed.
Theorem C28_decodes : forall ds b, ending ds = Some None ->
  json_decode ds b = Some (match unmarshal_bom (bytes_of ds) b with Ok c => Ok c | Err e => Err (EUnmarshal e) end).
Proof. intros ds b E. unfold json_decode. rewrite read_all_spec, E. reflexivity. Qed.
(** An error of the reader is what Decode returns, even after a complete document. *)
Theorem C28_reader_error : forall ds e b, ending ds = Some (Some e) -> json_decode ds b = Some (Err (ERead e)).
Proof. intros ds e b E. unfold json_decode. rewrite read_all_spec, E. reflexivity. Qed.
(** What follows the document decides too: a BOM is only returned for the whole input. *)
Theorem C28_whole_input : forall ds b c, json_decode ds b = Some (Ok c) -> ending ds = Some None /\ exists j, parse (bytes_of ds) = Some j /\ bom_of_json j b = Ok c.
Proof.
  intros ds b c. unfold json_decode. rewrite read_all_spec. destruct (ending ds) as [[e|]|]; try discriminate. cbn [append]. intros [= H].
  split; [reflexivity|]. destruct (unmarshal_bom (bytes_of ds) b) as [x|] eqn:U; [|discriminate]. injection H as <-. apply unmarshal_ok in U as (j & P & _ & B). exists j. auto.
Qed.
Definition ex_text : string := shown false true ex_json.
Definition ex_start : string := substring 0 20 ex_text.
Definition ex_rest : string := substring 20 (String.length ex_text) ex_text.
Example C28_nonvacuous : String.length ex_start = 20%nat /\ ex_start ++ ex_rest = ex_text /\
  json_decode [More ex_start; More ""; More ex_rest; Last ""] zero_BOM = Some (Ok ex_json) /\ json_decode [More ex_text; Broken "" "closed"] zero_BOM = Some (Err (ERead "closed")) /\
  json_decode [More ex_start; Last ""] zero_BOM = Some (Err (EUnmarshal ESyntax)) /\ json_decode [More ex_text; More "x"; Last ""] zero_BOM = Some (Err (EUnmarshal ESyntax)).
Proof. repeat split; vm_compute; reflexivity. Qed.

(** ** C29: writing *)

(** Encode returns no error exactly if the BOM can be encoded and the writer took the whole
    document without an error; then nothing else was written. *)
Theorem C29_json_nil : forall w r out, honest w -> encode_to w r = (out, None) -> exists t, r = Ok t /\ out = [t].
Proof.
  intros w r out H. destruct r as [t|]; [|discriminate]. unfold encode_to. destruct (write_error (w t)) eqn:E; [discriminate|]. intros [= <-].
  exists t. rewrite (proj1 (H t) E). auto.
Qed.
(** If the BOM cannot be encoded the writer is not called. *)
Theorem C29_json_nothing : forall w r out e, encode_to w r = (out, Some (EEncode e)) -> r = Err e /\ out = [].
Proof.
  intros w r out e. destruct r as [t|e']; unfold encode_to; [|intros [= <- <-]; auto]. destruct (write_error (w t)); discriminate.
Qed.
(** An error of the writer is what Encode returns, after a single call; what was written is
    a prefix of the document. *)
Theorem C29_json_write_error : forall w r out e, honest w -> encode_to w r = (out, Some (EWrite e)) ->
  exists t p rest, r = Ok t /\ out = [p] /\ t = p ++ rest /\ write_error (w t) = Some e.
Proof.
  intros w r out e H. destruct r as [t|e']; [|discriminate]. unfold encode_to. destruct (write_error (w t)) as [e'|] eqn:E; [|discriminate]. intros [= <- <-].
  destruct (proj2 (H t)) as (rest & R). exists t, (accepted (w t)), rest. auto.
Qed.
Definition full_after (n : nat) : writer := fun p => if (String.length p <=? n)%nat then mkWriteResult p None else mkWriteResult (substring 0 n p) (Some "no space").
Lemma full_honest n : honest (full_after n).
Proof.
  intros p. unfold full_after. destruct (String.length p <=? n)%nat; cbn [accepted write_error].
  - split; [reflexivity|]. exists "". induction p as [|a p IH]; [reflexivity|]. cbn. f_equal. exact IH.
  - split; [discriminate|]. revert n. induction p as [|a p IH]; intros [|n]; try (exists ""; reflexivity).
    + exists (String a p). reflexivity.
    + destruct (IH n) as (r & R). exists r. cbn. f_equal. exact R.
Qed.
Definition new_text : string := shown false true NewBOM.
Example C29_nonvacuous : encode_to (full_after 100) (json_encode_text false true NewBOM) = ([substring 0 100 new_text], Some (EWrite "no space")) /\
  encode_to (full_after 1000) (json_encode_text false true NewBOM) = ([new_text], None) /\
  fst (encode_to (full_after 1000) (json_encode_text false true (set_BOM_SpecVersion v1_1 NewBOM))) = [].
Proof. repeat split; vm_compute; reflexivity. Qed.

(** ** C16, C18, C25, C34, C35 on bytes *)

(** The bytes of an encoded BOM decode to it exactly if nothing in it is lost. *)
Theorem C16_text_partial : forall pretty esc b t, sane (TRef "BOM") (reify_BOM b) -> (nesting (reify_BOM b) <= max_depth)%N -> json_encode_text pretty esc b = Ok t ->
  (unmarshal_bom t zero_BOM = Ok (json_view b) <-> lossless (TRef "BOM") (reify_BOM (json_view b))).
Proof.
  intros pretty esc b t S N E. apply text_inv in E as (o & E & _ & _ & P & _). rewrite (unmarshal_parse _ _ _ P). exact (bom_round esc b o S E (C16_depth _ _ _ E N)).
Qed.
(** With no bound on depth. *)
Theorem C16_text_any_depth : forall pretty esc b t, sane (TRef "BOM") (reify_BOM b) -> json_encode_text pretty esc b = Ok t ->
  (exists c, unmarshal_bom t zero_BOM = Ok c /\ reify_BOM c = jback (TRef "BOM") (reify_BOM b)) \/ unmarshal_bom t zero_BOM = Err ETooDeep.
Proof. intros pretty esc b t S E. apply text_inv in E as (o & E & _ & _ & P & _). rewrite (unmarshal_parse _ _ _ P). exact (C16_any_depth esc b o S E). Qed.
Theorem C16_text : forall pretty esc b t c, sane (TRef "BOM") (reify_BOM b) -> json_encode_text pretty esc b = Ok t -> unmarshal_bom t zero_BOM = Ok c ->
  (c = json_view b <-> lossless (TRef "BOM") (reify_BOM (json_view b))).
Proof. intros pretty esc b t c S E U. apply text_inv in E as (o & E & _ & _ & P & _). rewrite (unmarshal_parse _ _ _ P) in U. exact (proj2 (C16_decoded esc b o c S E U)). Qed.
Example C16_text_nonvacuous : sane (TRef "BOM") (reify_BOM ex_json) /\ (nesting (reify_BOM ex_json) <= max_depth)%N /\ json_encode_text true false ex_json = Ok (shown true false ex_json) /\
  unmarshal_bom (shown true false ex_json) zero_BOM = Ok ex_json.
Proof. split; [vm_compute; repeat split|]. split; [vm_compute; discriminate|]. split; vm_compute; reflexivity. Qed.

(** Whatever bytes were decoded, encoding and decoding again changes nothing. *)
Theorem C34_text_partial : forall s j c pretty esc t, parse s = Some j -> doc_unique j -> unmarshal_bom s zero_BOM = Ok c -> json_encode_text pretty esc c = Ok t ->
  (nesting (reify_BOM c) <= max_depth)%N -> unmarshal_bom t zero_BOM = Ok c.
Proof.
  intros s j c pretty esc t P U D E N. rewrite (unmarshal_parse _ _ _ P) in D. apply text_inv in E as (o & E & _ & _ & Q & _). rewrite (unmarshal_parse _ _ _ Q).
  exact (bom_again j c esc o (parse_utf8 _ _ P) U D E (C16_depth _ _ _ E N)).
Qed.
Theorem C34_text : forall s j c pretty esc t d, parse s = Some j -> doc_unique j -> unmarshal_bom s zero_BOM = Ok c -> json_encode_text pretty esc c = Ok t ->
  unmarshal_bom t zero_BOM = Ok d -> d = c.
Proof.
  intros s j c pretty esc t d P U D E X. rewrite (unmarshal_parse _ _ _ P) in D. apply text_inv in E as (o & E & _ & _ & Q & _). rewrite (unmarshal_parse _ _ _ Q) in X.
  destruct (C34_decoded_again j c esc o (parse_utf8 _ _ P) U D E) as [Y|Y]; rewrite X in Y; [injection Y as Y; exact Y|discriminate].
Qed.
Theorem C25_text_partial : forall s j c, parse s = Some j -> doc_unique j -> unmarshal_bom s zero_BOM = Ok c ->
  (forall x, inside (TRef "BOM") (reify_BOM c) (TRef "ToolsChoice") (reify_ToolsChoice x) ->
     ToolsChoice_Tools x = None \/ (ToolsChoice_Components x = None /\ ToolsChoice_Services x = None)) /\
  (forall x, inside (TRef "BOM") (reify_BOM c) (TRef "EvidenceIdentityChoice") (reify_EvidenceIdentityChoice x) ->
     EvidenceIdentityChoice_Identity x = None \/ EvidenceIdentityChoice_Identities x = None) /\
  (forall x, inside (TRef "BOM") (reify_BOM c) (TRef "EnvironmentVariableChoice") (reify_EnvironmentVariableChoice x) ->
     EnvironmentVariableChoice_Property x = None \/ EnvironmentVariableChoice_Value x = "").
Proof.
  intros s j c P U D. rewrite (unmarshal_parse _ _ _ P) in D. destruct (decoded_choices j c (parse_utf8 _ _ P) U D) as (A & B & _ & _ & _ & _ & C & _). auto.
Qed.
Theorem C18_text_read : forall s ms x c, parse s = Some (JObj ms) -> doc_unique (JObj ms) -> unmarshal_bom s zero_BOM = Ok c ->
  In ("specVersion", JStr x) ms -> parse_spec_version x = Some (BOM_SpecVersion c).
Proof. intros s ms x c P U D. rewrite (unmarshal_parse _ _ _ P) in D. exact (read_version ms x c (parse_utf8 _ _ P) U D). Qed.
Theorem C35_text_partial : forall pretty esc sv b t c, copy b = Ok c -> json_encode_version_text pretty esc sv b = Ok t ->
  sane (TRef "BOM") (reify_BOM (convert sv c)) -> (nesting (reify_BOM (convert sv c)) <= max_depth)%N ->
  (unmarshal_bom t zero_BOM = Ok (json_view (convert sv c)) <-> lossless (TRef "BOM") (reify_BOM (json_view (convert sv c)))).
Proof. intros pretty esc sv b t c C E S N. rewrite (version_text_eq _ _ _ _ _ C) in E. exact (C16_text_partial pretty esc _ t S N E). Qed.
Theorem C35_text : forall pretty esc sv b t c d, copy b = Ok c -> json_encode_version_text pretty esc sv b = Ok t ->
  sane (TRef "BOM") (reify_BOM (convert sv c)) -> unmarshal_bom t zero_BOM = Ok d ->
  (d = json_view (convert sv c) <-> lossless (TRef "BOM") (reify_BOM (json_view (convert sv c)))).
Proof. intros pretty esc sv b t c d C E S D. rewrite (version_text_eq _ _ _ _ _ C) in E. exact (C16_text pretty esc _ t d S E D). Qed.
Example C34_text_nonvacuous : (exists j, parse ex_text = Some j /\ doc_unique j) /\ unmarshal_bom ex_text zero_BOM = Ok ex_json /\ json_encode_text false true ex_json = Ok ex_text.
Proof.
  split; [|split; vm_compute; reflexivity]. eexists. split; [vm_compute; reflexivity|].
  cbn [doc_unique list_all map fst snd]. repeat split; repeat (constructor; [cbn; intuition discriminate|]); constructor.
Qed.

Definition text_theorems :=
  (C27_parses, C27_bom_parses, C27_no_html, C27_utf8, C27_one_line, C26_pretty, C26_escape, C26_defaults, C26_encode, C26_encode_version, C26_same_bom, C26_same_failure_partial, C26_escape_refuted,
   C28_chunks, C28_decodes, C28_reader_error, C28_whole_input, C29_json_nil, C29_json_nothing, C29_json_write_error,
   C16_text_any_depth, C16_text, C34_text, C35_text, C26_same_failure_refuted, C16_text_partial, C34_text_partial, C25_text_partial, C18_text_read, C35_text_partial).
Print Assumptions text_theorems.
