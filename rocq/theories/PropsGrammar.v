(** Property theorems for C40: Decode takes exactly the texts of the JSON grammar. The
    grammar is in JsonGrammar.v; [document s j] says that the text [s] stands for the tree
    [j]. A reader that ends without an error delivers [bytes_of ds]. *)
From Verif Require Import Base Types Univ Reify Consts JsonModel JsonSpec JsonText JsonTextProofs JsonTextRound JsonTextBom JsonIO JsonTextMore ExampleBom JsonGrammar JsonGrammarProofs PropsJson PropsText.
Local Open Scope string_scope.

(** The parser of the model and the grammar agree. *)
Theorem C40_json_grammar : forall s j, parse s = Some j <-> document s j.
Proof. intros s j. split; [apply parse_sound|apply parse_complete_grammar]. Qed.
(** A text stands for at most one tree. *)
Theorem C40_json_unambiguous : forall s j k, document s j -> document s k -> j = k.
Proof. intros s j k J K. apply parse_complete_grammar in J, K. rewrite J in K. injection K as K. exact K. Qed.
(** A BOM is decoded only from a text of the grammar, and is what the tree decodes to. *)
Theorem C40_json_accepts : forall ds b c, ending ds = Some None ->
  (json_decode ds b = Some (Ok c) <-> exists j, document (bytes_of ds) j /\ bom_of_json j b = Ok c).
Proof.
  intros ds b c E. rewrite (C28_decodes ds b E). unfold unmarshal_bom. split.
  - destruct (parse (bytes_of ds)) as [j|] eqn:P; [|discriminate]. destruct (bom_of_json j b) as [d|] eqn:B; [|discriminate]. intros [= <-]. exists j. split; [apply parse_sound, P|exact B].
  - intros (j & D & B). rewrite (parse_complete_grammar _ _ D), B. reflexivity.
Qed.
(** Every other text is a syntax error, into whatever BOM it is decoded. *)
Theorem C40_json_refuses : forall ds b, ending ds = Some None -> (forall j, ~ document (bytes_of ds) j) -> json_decode ds b = Some (Err (EUnmarshal ESyntax)).
Proof.
  intros ds b E N. rewrite (C28_decodes ds b E). unfold unmarshal_bom. destruct (parse (bytes_of ds)) as [j|] eqn:P; [exfalso; exact (N j (parse_sound _ _ P))|reflexivity].
Qed.
(** Texts that stand for one tree, in whatever layout and with whatever escapes, decode
    alike, errors included. *)
Theorem C40_json_layout : forall ds ds' j b, ending ds = Some None -> ending ds' = Some None -> document (bytes_of ds) j -> document (bytes_of ds') j ->
  json_decode ds b = json_decode ds' b.
Proof.
  intros ds ds' j b E E' D D'. rewrite (C28_decodes ds b E), (C28_decodes ds' b E'). unfold unmarshal_bom. rewrite (parse_complete_grammar _ _ D), (parse_complete_grammar _ _ D'). reflexivity.
Qed.
(** White space before and after a document changes nothing. *)
Theorem C40_json_margins : forall v s w j, white v -> white w -> document s j -> document (v ++ s ++ w) j.
Proof.
  intros v s w j V W D. destruct D as [v' s w' j V' X W']. replace (v ++ (v' ++ s ++ w') ++ w) with ((v ++ v') ++ s ++ (w' ++ w)) by (rewrite !app_app; reflexivity).
  constructor; [apply white_app; assumption|exact X|apply white_app; assumption].
Qed.
(** What Encode writes is a text of the grammar, for the tree of the BOM. *)
Theorem C40_json_written : forall pretty esc b t, json_encode_text pretty esc b = Ok t -> exists o, json_encode esc b = Ok o /\ document t (erase o).
Proof. intros pretty esc b t E. apply C27_bom_parses in E as (o & E & P). exists o. split; [exact E|apply parse_sound, P]. Qed.
(** With other options it is another text of the same tree. *)
Theorem C40_json_options : forall p1 e1 p2 e2 b t1 t2, json_encode_text p1 e1 b = Ok t1 -> json_encode_text p2 e2 b = Ok t2 -> exists j, document t1 j /\ document t2 j.
Proof.
  intros p1 e1 p2 e2 b t1 t2 E1 E2. pose proof (options_alike _ _ _ _ _ _ _ E1 E2) as H. apply C27_bom_parses in E1 as (o & _ & P). exists (erase o).
  split; apply parse_sound; [exact P|rewrite <- H; exact P].
Qed.

(** Spaces, all kinds of tokens, escapes and a surrogate pair *)
Definition g_text : string := " { ""bomFormat"" :""CycloneDX"",""specVersion"":""1.6"", ""version"":3, ""x"":[ true,-0.5E+1 ,null,[ ],{ }], ""serialNumber"":""\uD83D\ude00\/"" } ".
Definition g_plain : string := "{""bomFormat"":""CycloneDX"",""specVersion"":""1.6"",""version"":3,""x"":[true,-0.5E+1,null,[],{}],""serialNumber"":""" ++ rune_text 0x1F600 ++ "/""}".
Definition g_tree : json := JObj [("bomFormat", JStr "CycloneDX"); ("specVersion", JStr "1.6"); ("version", JNum "3");
  ("x", JArr [JBool true; JNum "-0.5E+1"; JNull; JArr []; JObj []]); ("serialNumber", JStr (rune_text 0x1F600 ++ "/"))].
Example C40_nonvacuous : document g_text g_tree /\ document g_plain g_tree /\ g_text <> g_plain /\
  (exists c, json_decode [More g_text; Last ""] zero_BOM = Some (Ok c) /\ BOM_SerialNumber c = rune_text 0x1F600 ++ "/" /\ BOM_Version c = 3%Z).
Proof.
  repeat match goal with |- _ /\ _ => split end; try (apply parse_sound; vm_compute; reflexivity); [discriminate|].
  eexists. split; [vm_compute; reflexivity|split; reflexivity].
Qed.
(** Texts that are not JSON: a comma at the end, a leading zero, a second value, a control
    character in a string, an unknown escape, half an escape, a comment, no value *)
Definition g_wrong : list string :=
  ["[1,]"; "{""a"":1,}"; "[01]"; "{} {}"; String dquote (String "010" (String dquote "")); """\x"""; """\u12"""; "{} // end"; " "; "nul"; "+1"; "1."; ".5"; "'a'"; "{a:1}"; "[1 2]"; """a"].
Example C40_wrong_nonvacuous : forall s j, In s g_wrong -> ~ document s j.
Proof.
  intros s j I D. apply parse_complete_grammar in D. cbn in I. repeat (destruct I as [<-|I]; [vm_compute in D; discriminate|]). contradiction.
Qed.

Definition grammar_theorems := (C40_json_grammar, C40_json_unambiguous, C40_json_accepts, C40_json_refuses, C40_json_layout, C40_json_margins, C40_json_written, C40_json_options).
Print Assumptions grammar_theorems.
