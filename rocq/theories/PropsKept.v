(** Property theorems for C43: nothing that a conforming JSON document says is lost when it is
    decoded and encoded again. What it means to conform and what it means that something is
    kept is in SchemaSpec.v. *)
From Verif Require Import Base Types Univ Wt Reify Consts LinkModel Version Numbers NumbersProofs Utf8 JsonModel JsonSpec JsonText JsonTextProofs JsonTextRound JsonTextBom JsonIO JsonTextMore JsonGrammar JsonGrammarProofs ConvertSpec SchemaSpec Schemas SchemaProofs SchemaKeep JsonOut SameOutcome PropsText PropsGrammar PropsSchema.
Local Open Scope string_scope.

(** Documents without a certain member of the objects of one definition *)
Definition without (def key : string) (d : schemas) : schemas :=
  map (fun m => if String.eqb (fst m) def then (fst m, match snd m with Object ms r => Object (filter (fun x => negb (String.eqb (fst x) key)) ms) r | s => s end) else m) d.
(** What has to be excepted, with the exceptions of C42: from 1.4 on signatures by a single
    signer; from 1.5 on properties of model cards; in 1.7 asserters and assignees of patents, and
    patent families whose identifier is the empty string. *)
Definition multiply_signed : schemas -> schemas := amend "jsf:signature" [] (OneOf [Object [("signers", ListOf (Ref "jsf:signer"))] []; Object [("chain", ListOf (Ref "jsf:signer"))] []]).
Definition losses (v : string) (d : schemas) : schemas :=
  if (String.eqb v "1.2" || String.eqb v "1.3")%bool then d
  else if String.eqb v "1.4" then multiply_signed d
  else if (String.eqb v "1.5" || String.eqb v "1.6")%bool then multiply_signed (without "modelCard" "properties" d)
  else multiply_signed (without "modelCard" "properties"
         (amend "patentAssertions" ["[]"; "asserter"] (OneOf []) (amend "patent" ["patentAssignee"; "[]"] (OneOf []) (amend "patentFamily" ["familyId"] Filled d)))).
Lemma official_keeping : forallb (fun m => keeping (known_version (losses (fst m) (exceptions (fst m) (snd m))))) official = true.
Proof. vm_compute. reflexivity. Qed.

(** What a document that conforms to the schema of its version says is, apart from the
    exceptions, in the document that is written from the decoded BOM, at the same place. Two
    members of an object must not have the same name but for upper and lower case: of two such
    members only one can be kept. *)
Theorem C43_json_kept_partial : forall v d j c esc o, In (v, d) official -> conforms (known_version (losses v (exceptions v d))) (Ref "") j -> doc_utf8 j -> doc_unique j ->
  bom_of_json j zero_BOM = Ok c -> json_encode esc c = Ok o -> kept j (erase o).
Proof.
  intros v d j c esc o I. assert (S : keeping (known_version (losses v (exceptions v d))) = true).
  { pose proof official_keeping as S. rewrite forallb_forall in S. exact (S (v, d) I). }
  exact (keeping_keeps _ j c esc o S).
Qed.
(** 1.3 has no exceptions, 1.2 only those of C42. *)
Theorem C43_json_kept : forall v d j c esc o, In (v, d) [("1.2", exceptions "1.2" schema_1_2); ("1.3", schema_1_3)] -> conforms (known_version d) (Ref "") j -> doc_utf8 j -> doc_unique j ->
  bom_of_json j zero_BOM = Ok c -> json_encode esc c = Ok o -> kept j (erase o).
Proof.
  intros v d j c esc o I. destruct I as [[= <- <-]|[[= <- <-]|[]]].
  - apply (C43_json_kept_partial "1.2" schema_1_2). left. reflexivity.
  - apply (C43_json_kept_partial "1.3" schema_1_3). right. left. reflexivity.
Qed.
(** The same for texts: whatever the layout of the document that is read, the pieces in which
    it is read and the options of the encoder. A text cannot hold strings that are not UTF-8. *)
Theorem C43_json_texts : forall v d ds j c pretty esc t, In (v, d) official -> ending ds = Some None -> document (bytes_of ds) j -> conforms (known_version (losses v (exceptions v d))) (Ref "") j -> doc_unique j ->
  json_decode ds zero_BOM = Some (Ok c) -> json_encode_text pretty esc c = Ok t -> exists j', document t j' /\ kept j j'.
Proof.
  intros v d ds j c pretty esc t I E D C Q Dc Et. apply C40_json_accepts in Dc as (j0 & D0 & B); [|exact E]. pose proof (parse_complete_grammar _ _ D) as P. pose proof (parse_complete_grammar _ _ D0) as P0. rewrite P in P0. injection P0 as <-.
  apply C40_json_written in Et as (o & Eo & Dt). exists (erase o). split; [exact Dt|]. exact (C43_json_kept_partial v d j c esc o I C (parse_utf8 _ _ P) Q B Eo).
Qed.
(** A document that says something at some place is never written without it: a special case
    to show what [kept] means. *)
Theorem C43_json_names : forall v d ms c esc o k x, In (v, d) official -> conforms (known_version (losses v (exceptions v d))) (Ref "") (JObj ms) -> doc_utf8 (JObj ms) -> doc_unique (JObj ms) ->
  bom_of_json (JObj ms) zero_BOM = Ok c -> json_encode esc c = Ok o -> In (k, JStr x) ms -> x <> "" -> exists ms', erase o = JObj ms' /\ In (k, JStr x) ms'.
Proof.
  intros v d ms c esc o k x I C U Q B E Hi Nx. pose proof (C43_json_kept_partial v d _ c esc o I C U Q B E) as K. inversion K as [| | | | |ms0 ms' H|]; subst. exists ms'. split; [reflexivity|].
  destruct (H _ _ Hi) as [Bl|(j' & Hj & Kj)]; [inversion Bl; subst; contradiction|]. inversion Kj; subst; [exact Hj|contradiction].
Qed.

(** ** The exceptions are needed *)

(** The members of a signature by a single signer are those of an embedded struct that the tag
    json:"-" takes out of the JSON (cyclonedx.go, line 910). *)
Definition k_signed (v value : string) : json :=
  JObj [("bomFormat", JStr "CycloneDX"); ("specVersion", JStr v); ("version", JNum "1"); ("signature", JObj [("algorithm", JStr "RS256"); ("value", JStr value)])].
Theorem C43_json_signer_refuted : forall value, conforms (known_version schema_1_4) (Ref "") (k_signed "1.4" value) /\ conforms schema_1_5 (Ref "") (k_signed "1.5" value) /\ conforms schema_1_6 (Ref "") (k_signed "1.6" value) /\ conforms schema_1_7 (Ref "") (k_signed "1.7" value) /\
  forall v, In v ["1.4"; "1.5"; "1.6"; "1.7"] -> bom_of_json (k_signed v value) zero_BOM = bom_of_json (k_signed v "") zero_BOM.
Proof.
  intros value. split; [conforming|]. split; [conforming|]. split; [conforming|]. split; [conforming|].
  intros v [<-|[<-|[<-|[<-|[]]]]]; vm_compute; reflexivity.
Qed.
(** MLModelCard has no properties (cyclonedx.go, lines 1065-1070). *)
Definition k_model (v value : string) : json :=
  JObj [("bomFormat", JStr "CycloneDX"); ("specVersion", JStr v); ("version", JNum "1");
        ("components", JArr [JObj [("type", JStr "machine-learning-model"); ("name", JStr "m"); ("modelCard", JObj [("properties", JArr [JObj [("name", JStr "p"); ("value", JStr value)]])])]])].
Theorem C43_json_model_refuted : forall value, conforms schema_1_5 (Ref "") (k_model "1.5" value) /\ conforms schema_1_6 (Ref "") (k_model "1.6" value) /\ conforms schema_1_7 (Ref "") (k_model "1.7" value) /\
  forall v, In v ["1.5"; "1.6"; "1.7"] -> bom_of_json (k_model v value) zero_BOM = bom_of_json (k_model v "") zero_BOM.
Proof.
  intros value. split; [conforming|]. split; [conforming|]. split; [conforming|]. intros v [<-|[<-|[<-|[]]]]; vm_compute; reflexivity.
Qed.
(** The assignees of a patent are organizations and contacts; the decoder wants them to be
    wrapped (cyclonedx.go, lines 1226-1229). *)
Definition k_patent (p : json) : json := JObj [("bomFormat", JStr "CycloneDX"); ("specVersion", JStr "1.7"); ("definitions", JObj [("patents", JArr [p])])].
Definition k_assigned (name : string) : json := k_patent (JObj [("patentNumber", JStr "US1"); ("jurisdiction", JStr "US"); ("patentLegalStatus", JStr "granted"); ("patentAssignee", JArr [JObj [("name", JStr name)]])]).
Theorem C43_json_assignee_refuted : forall name, conforms schema_1_7 (Ref "") (k_assigned name) /\ bom_of_json (k_assigned name) zero_BOM = bom_of_json (k_assigned "") zero_BOM.
Proof. intros name. split; [conforming|vm_compute; reflexivity]. Qed.
(** A family without an identifier is taken for a patent. *)
Definition k_family (r : string) : json := k_patent (JObj [("familyId", JStr ""); ("members", JArr [JStr r])]).
Theorem C43_json_family_refuted : forall r, r <> "" -> conforms schema_1_7 (Ref "") (k_family r) /\ bom_of_json (k_family r) zero_BOM = bom_of_json (k_family "r") zero_BOM.
Proof. intros r Nr. split; [conforming|vm_compute; reflexivity]. Qed.

(** ** Non-trivial documents meet the hypotheses *)
Example C43_json_nonvacuous : conforms (known_version (exceptions "1.2" schema_1_2)) (Ref "") (s_doc "1.2") /\ conforms (known_version (losses "1.6" (exceptions "1.6" schema_1_6))) (Ref "") s_doc16 /\
  doc_utf8 s_doc16 /\ doc_unique s_doc16 /\ exists c o, bom_of_json s_doc16 zero_BOM = Ok c /\ json_encode true c = Ok o.
Proof.
  assert (ND : forall l : list string, (if List.list_eq_dec string_dec (nodup string_dec l) l then true else false) = true -> NoDup l).
  { intros l. destruct (list_eq_dec string_dec (nodup string_dec l) l) as [<-|]; [intros _; apply NoDup_nodup|discriminate]. }
  split; [conforming|]. split; [conforming|]. split; [|split; [|eexists; eexists; split; [vm_compute; reflexivity|vm_compute; reflexivity]]].
  - unfold s_doc16. cbn [doc_utf8 list_all map fst snd]. repeat split; apply JsonOut.ascii_utf8; reflexivity.
  - repeat match goal with |- doc_unique _ => cbn [doc_unique s_doc16 list_all snd] | |- _ /\ _ => split | |- NoDup _ => apply ND; vm_compute; reflexivity | |- True => exact Logic.I end.
Qed.

Definition kept_theorems := (C43_json_kept_partial, C43_json_kept, C43_json_texts, C43_json_names, C43_json_signer_refuted, C43_json_model_refuted, C43_json_assignee_refuted, C43_json_family_refuted).
Print Assumptions kept_theorems.
