(** Property theorems for C45: what is written as JSON is known to the official schema. What
    that means is in ShapeSpec.v; the schema is [schema_1_7] in Schemas.v, which covers
    everything that the types of the package can hold. *)
From Verif Require Import Base Types Univ Wt Reify Consts LinkModel Version Numbers NumbersProofs Utf8 GobModel JsonModel JsonSpec JsonText JsonTextProofs JsonTextRound JsonTextBom JsonIO JsonTextMore JsonGrammar JsonGrammarProofs ConvertSpec SchemaSpec Schemas SchemaProofs JsonOut SameOutcome ShapeSpec JsonShape JsonNulls PropsText PropsGrammar PropsSchema.
Local Open Scope string_scope.

(** The four places where the package writes what the schema does not know: parameters of a
    task's output, and three members that are written in another form than the schema has. *)
Definition adding (def key : string) (s : schema) (d : schemas) : schemas :=
  map (fun m => if String.eqb (fst m) def then (fst m, match snd m with Object ms r => Object ((key, s) :: ms) r | s' => s' end) else m) d.
Definition stretched : schemas :=
  adding "outputType" "parameters" Anything
    (amend "" ["declarations"; "evidence"; "[]"; "data"; "[]"; "classification"] Anything
       (amend "patentAssertions" ["[]"; "asserter"] Anything
          (amend "patent" ["patentAssignee"; "[]"] Anything schema_1_7))).
Lemma stretched_covers : covers stretched = true.
Proof. vm_compute. reflexivity. Qed.

(** Whatever the BOM is: apart from the four places, every member that is written is one that
    the schema defines at that place, and its value is null or of the type the schema asks
    for. Missing from the full property: the four places, and the nulls. *)
Theorem C45_json_known_partial : forall b esc o, json_encode esc b = Ok o -> shaped stretched (Ref "") (erase o).
Proof. intros b esc o E. exact (covers_shapes stretched b esc o stretched_covers E). Qed.
Theorem C45_json_texts_partial : forall b pretty esc t, json_encode_text pretty esc b = Ok t -> exists j, document t j /\ shaped stretched (Ref "") j.
Proof. intros b pretty esc t E. apply C40_json_written in E as (o & Eo & D). exists (erase o). split; [exact D|]. exact (C45_json_known_partial b esc o Eo). Qed.
(** Null is written only for a BOM in which something is missing that the encoder does not
    leave out. *)
Theorem C45_json_null : forall b esc o, hollow (TRef "BOM") (reify_BOM b) = false -> json_encode esc b = Ok o -> nulls (erase o) = false.
Proof. exact no_nulls. Qed.

(** The exceptions are real: for each of the places there is a BOM whose document the schema
    as it is does not know. *)
Definition one_assertion (asserter : json) : json :=
  JObj [("specVersion", JStr "1.7"); ("components", JArr [JObj [("type", JStr "library"); ("name", JStr "n"); ("patentAssertions", JArr [JObj [("assertionType", JStr "license"); ("asserter", asserter)]])]])].
Definition s_output : json := JObj [("specVersion", JStr "1.7"); ("formulation", JArr [JObj [("workflows", JArr [JObj [("bom-ref", JStr "w"); ("outputs", JArr [JObj [("parameters", JArr [JObj [("name", JStr "p")]])]])]])]])].
Definition s_classified : json := JObj [("specVersion", JStr "1.7"); ("declarations", JObj [("evidence", JArr [JObj [("data", JArr [JObj [("classification", JObj [("flow", JStr "inbound"); ("classification", JStr "pii")])]])]])])].
Definition s_asserted : json := one_assertion (JObj [("ref", JStr "r")]).
Definition s_assigned : json := JObj [("specVersion", JStr "1.7"); ("definitions", JObj [("patents", JArr [JObj [("patentNumber", JStr "1"); ("patentAssignee", JArr [JObj [("organization", JObj [("name", JStr "n")])]])]])])].
Theorem C45_json_output_refuted : exists b o, bom_of_json s_output zero_BOM = Ok b /\ json_encode true b = Ok o /\ ~ shaped schema_1_7 (Ref "") (erase o).
Proof. eexists. eexists. split; [vm_compute; reflexivity|]. split; [vm_compute; reflexivity|]. apply (not_shaped schema_1_7 20). vm_compute. reflexivity. Qed.
Theorem C45_json_classification_refuted : exists b o, bom_of_json s_classified zero_BOM = Ok b /\ json_encode true b = Ok o /\ ~ shaped schema_1_7 (Ref "") (erase o).
Proof. eexists. eexists. split; [vm_compute; reflexivity|]. split; [vm_compute; reflexivity|]. apply (not_shaped schema_1_7 20). vm_compute. reflexivity. Qed.
Theorem C45_json_asserter_refuted : exists b o, bom_of_json s_asserted zero_BOM = Ok b /\ json_encode true b = Ok o /\ ~ shaped schema_1_7 (Ref "") (erase o).
Proof. eexists. eexists. split; [vm_compute; reflexivity|]. split; [vm_compute; reflexivity|]. apply (not_shaped schema_1_7 20). vm_compute. reflexivity. Qed.
Theorem C45_json_assignee_refuted : exists b o, bom_of_json s_assigned zero_BOM = Ok b /\ json_encode true b = Ok o /\ ~ shaped schema_1_7 (Ref "") (erase o).
Proof. eexists. eexists. split; [vm_compute; reflexivity|]. split; [vm_compute; reflexivity|]. apply (not_shaped schema_1_7 20). vm_compute. reflexivity. Qed.
(** Null is written, where the schema has a list. *)
Definition b_null : BOM := set_BOM_Components (Some None) (set_BOM_SpecVersion SpecVersion1_7 zero_BOM).
Theorem C45_json_null_refuted : exists o ms, json_encode true b_null = Ok o /\ erase o = JObj ms /\ In ("components", JNull) ms.
Proof. eexists. eexists. split; [vm_compute; reflexivity|]. split; [vm_compute; reflexivity|]. vm_compute. tauto. Qed.

(** A non-trivial BOM that is written, that lacks nothing, and whose document the schema as it
    is knows. *)
Example C45_json_nonvacuous : exists b o ms, bom_of_json s_doc16 zero_BOM = Ok b /\ json_encode true b = Ok o /\ hollow (TRef "BOM") (reify_BOM b) = false /\ erase o = JObj ms /\ Nat.ltb 4 (length ms) = true /\ may_be schema_1_7 100 (Ref "") (erase o) = true.
Proof. eexists. eexists. eexists. split; [vm_compute; reflexivity|]. split; [vm_compute; reflexivity|]. split; [vm_compute; reflexivity|]. split; [vm_compute; reflexivity|]. split; vm_compute; reflexivity. Qed.

Definition shape_theorems := (C45_json_known_partial, C45_json_texts_partial, C45_json_null, C45_json_output_refuted, C45_json_classification_refuted, C45_json_asserter_refuted, C45_json_assignee_refuted, C45_json_null_refuted).
Print Assumptions shape_theorems.
