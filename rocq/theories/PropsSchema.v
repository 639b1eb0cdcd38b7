(** Property theorems for C42: JSON documents that conform to the official schemas are
    decoded. The schemas are in Schemas.v (translated from /repo/schema), what it means to
    conform in SchemaSpec.v. *)
From Verif Require Import Base Types Univ Reify Consts LinkModel Version Numbers NumbersProofs Utf8 JsonModel JsonSpec JsonText JsonTextProofs JsonTextRound JsonTextBom JsonIO JsonTextMore JsonGrammar JsonGrammarProofs ConvertSpec SchemaSpec Schemas SchemaProofs SameOutcome PropsText PropsGrammar.
Local Open Scope string_scope.

Definition official : list (string * schemas) :=
  [("1.2", schema_1_2); ("1.3", schema_1_3); ("1.4", schema_1_4); ("1.5", schema_1_5); ("1.6", schema_1_6); ("1.7", schema_1_7)].
(** Documents that name a version there is. (1.2 to 1.4 allow any string.) *)
Definition known_version : schemas -> schemas := amend "" ["specVersion"] (Words ["1.0"; "1.1"; "1.2"; "1.3"; "1.4"; "1.5"; "1.6"; "1.7"]).
(** What has to be excepted: 1.2 does not say that urls, references and endpoints are
    strings; from 1.6 on the classification of evidence cannot be read; in 1.7 an asserter
    that is a reference cannot be read. Nothing conforms to [OneOf []]. *)
Definition exceptions (v : string) (d : schemas) : schemas :=
  if String.eqb v "1.2" then amend "organizationalEntity" ["url"; "[]"] Text (amend "issue" ["references"; "[]"] Text (amend "service" ["endpoints"; "[]"] Text d))
  else if String.eqb v "1.6" then amend "" ["declarations"; "evidence"; "[]"; "data"; "[]"; "classification"] (OneOf []) d
  else if String.eqb v "1.7" then amend "" ["declarations"; "evidence"; "[]"; "data"; "[]"; "classification"] (OneOf [])
                                    (amend "patentAssertions" ["[]"; "asserter"] (OneOf [Ref "organizationalEntity"; Ref "organizationalContact"]) d)
  else d.
Lemma official_suits : forallb (fun m => suits (known_version (exceptions (fst m) (snd m)))) official = true.
Proof. vm_compute. reflexivity. Qed.

(** Every document that conforms to the schema of its version, apart from the exceptions, is
    decoded, into whatever BOM. (encoding/json refuses documents of more than 10000 levels.) *)
Theorem C42_json_conforming_partial : forall v d j b, In (v, d) official -> conforms (known_version (exceptions v d)) (Ref "") j -> too_deep j = false ->
  exists c, bom_of_json j b = Ok c.
Proof.
  intros v d j b I. assert (S : suits (known_version (exceptions v d)) = true).
  { pose proof official_suits as S. rewrite forallb_forall in S. exact (S (v, d) I). }
  exact (suits_decodes _ j b S).
Qed.
(** 1.3, 1.4 and 1.5 have no exceptions. *)
Theorem C42_json_conforming : forall v d j b, In (v, d) [("1.3", schema_1_3); ("1.4", schema_1_4); ("1.5", schema_1_5)] -> conforms (known_version d) (Ref "") j -> too_deep j = false ->
  exists c, bom_of_json j b = Ok c.
Proof.
  intros v d j b I. assert (E : In (v, d) official /\ exceptions v d = d) by (destruct I as [[= <- <-]|[[= <- <-]|[[= <- <-]|[]]]]; split; try reflexivity; unfold official; cbn [In]; auto 8).
  destruct E as (O & E). rewrite <- E at 1. exact (C42_json_conforming_partial v d j b O).
Qed.
(** The same for texts, in whatever layout and pieces a reader delivers them. *)
Theorem C42_json_texts : forall v d ds j b, In (v, d) official -> ending ds = Some None -> document (bytes_of ds) j -> conforms (known_version (exceptions v d)) (Ref "") j -> too_deep j = false ->
  exists c, json_decode ds b = Some (Ok c).
Proof.
  intros v d ds j b I E D C T. destruct (C42_json_conforming_partial v d j b I C T) as (c & B). exists c. apply C40_json_accepts; [exact E|]. exists j. split; [exact D|exact B].
Qed.

(** To show that literal documents conform *)
Ltac conforming :=
  match goal with
  | |- conforms _ (Ref _) _ => eapply co_ref; [vm_compute; reflexivity|conforming]
  | |- conforms _ Text _ => apply co_text
  | |- conforms _ Anything _ => apply co_any
  | |- conforms _ Filled _ => apply co_filled; first [discriminate|assumption]
  | |- conforms _ (Words _) _ => apply co_words; cbn; tauto
  | |- conforms _ Truth _ => apply co_truth
  | |- conforms _ Whole (JNum ?l) => let z := eval vm_compute in (match atoi l with Ok z => z | Err _ => 0%Z end) in change l with (format_int z); apply co_whole; reflexivity
  | |- conforms _ Number _ => apply co_number; split; [reflexivity|intros []; eexists; vm_compute; reflexivity]
  | |- conforms _ (ListOf _) _ => apply co_list; let H := fresh in intros ? H; cbn [In] in H; repeat (destruct H as [<-|H]; [conforming|]); contradiction H
  | |- conforms _ (Object _ _) _ =>
      apply co_object; [let H := fresh in intros ? ? H; cbn [In] in H; repeat (destruct H as [[= <- <-]|H]; [cbn; tauto|]); contradiction H
                       |let H := fresh in let A := fresh in intros ? ? ? H A; cbn [In] in H; repeat (destruct H as [[= <- <-]|H]; [vm_compute in A; injection A as <-; conforming|]); contradiction H
                       |let H := fresh in intros ? H; cbn [In] in H; repeat (destruct H as [<-|H]; [cbn; tauto|]); contradiction H]
  | |- conforms _ (OneOf _) _ => first [eapply co_one; [left; reflexivity|conforming]|eapply co_one; [right; left; reflexivity|conforming]|eapply co_one; [right; right; left; reflexivity|conforming]]
  end.

(** A document with tools, a license, an integer, a number, components within components,
    workflow variables in both forms *)
Definition s_doc (v : string) : json :=
  JObj [("bomFormat", JStr "CycloneDX"); ("specVersion", JStr v); ("version", JNum "3");
        ("metadata", JObj [("tools", JArr [JObj [("vendor", JStr "acme"); ("name", JStr "t")]])]);
        ("components", JArr [JObj [("type", JStr "library"); ("name", JStr "a"); ("version", JStr "1"); ("modified", JBool false);
                                   ("licenses", JArr [JObj [("license", JObj [("id", JStr "MIT")])]]);
                                   ("components", JArr [JObj [("type", JStr "file"); ("name", JStr "b"); ("version", JStr "2")]])]])].
Definition s_doc16 : json :=
  JObj [("bomFormat", JStr "CycloneDX"); ("specVersion", JStr "1.6");
        ("vulnerabilities", JArr [JObj [("id", JStr "CVE"); ("ratings", JArr [JObj [("score", JNum "7.5")]])]]);
        ("components", JArr [JObj [("type", JStr "library"); ("name", JStr "a"); ("evidence", JObj [("identity", JArr [JObj [("field", JStr "purl"); ("confidence", JNum "0.5")]])])]]);
        ("formulation", JArr [JObj [("workflows", JArr [JObj [("bom-ref", JStr "w"); ("uid", JStr "u"); ("taskTypes", JArr [JStr "build"]);
            ("inputs", JArr [JObj [("environmentVars", JArr [JObj [("name", JStr "n"); ("value", JStr "v")]; JStr "PATH"])]])]])]])].
Example C42_json_nonvacuous : conforms (known_version (exceptions "1.2" schema_1_2)) (Ref "") (s_doc "1.2") /\ conforms (known_version schema_1_4) (Ref "") (s_doc "1.4") /\
  conforms (known_version (exceptions "1.6" schema_1_6)) (Ref "") s_doc16 /\ conforms schema_1_6 (Ref "") s_doc16 /\
  (exists c, bom_of_json (s_doc "1.2") zero_BOM = Ok c /\ BOM_SpecVersion c = v1_2 /\ map Component_Name (ConvertSpec.members (BOM_Components c)) = ["a"]) /\
  (exists c, bom_of_json s_doc16 zero_BOM = Ok c /\ BOM_SpecVersion c = v1_6).
Proof.
  repeat match goal with |- _ /\ _ => split end; try conforming; [eexists; split; [vm_compute; reflexivity|split; reflexivity]|eexists; split; [vm_compute; reflexivity|reflexivity]].
Qed.

(** The exceptions are needed. Evidence is classified by a string in the schemas 1.6 and
    1.7; the decoder wants an object (cyclonedx.go, line 614) and refuses the document. *)
Definition s_classified (v : string) : json :=
  JObj [("bomFormat", JStr "CycloneDX"); ("specVersion", JStr v);
        ("declarations", JObj [("evidence", JArr [JObj [("bom-ref", JStr "e"); ("data", JArr [JObj [("name", JStr "n"); ("classification", JStr "public")]])]])])].
Theorem C42_json_classification_refuted : conforms schema_1_6 (Ref "") (s_classified "1.6") /\ conforms schema_1_7 (Ref "") (s_classified "1.7") /\
  forall v b, v = "1.6" \/ v = "1.7" -> exists e, bom_of_json (s_classified v) b = Err e.
Proof.
  split; [conforming|]. split; [conforming|]. intros v b V.
  assert (F : exists e, bom_of_json (s_classified v) zero_BOM = Err e) by (destruct V as [-> | ->]; eexists; vm_compute; reflexivity).
  destruct F as (e & F). exists e. pose proof (SameOutcome.json_outcome (s_classified v) b zero_BOM) as O. rewrite F in O. destruct (bom_of_json (s_classified v) b); [contradiction|congruence].
Qed.
(** In 1.7 the asserter of a patent is an organization, a contact or a reference; the
    decoder wants it to be wrapped (cyclonedx_json.go, lines 320-349). References are refused,
    organizations and contacts are lost. *)
Definition s_patents (asserter : json) : json :=
  JObj [("bomFormat", JStr "CycloneDX"); ("specVersion", JStr "1.7");
        ("components", JArr [JObj [("type", JStr "library"); ("name", JStr "a"); ("patentAssertions", JArr [JObj [("assertionType", JStr "ownership"); ("asserter", asserter)]])]])].
Theorem C42_json_asserter_refuted :
  (conforms schema_1_7 (Ref "") (s_patents (JStr "org-1")) /\ forall b, exists e, bom_of_json (s_patents (JStr "org-1")) b = Err e) /\
  (forall name, conforms schema_1_7 (Ref "") (s_patents (JObj [("name", JStr name)])) /\ bom_of_json (s_patents (JObj [("name", JStr name)])) zero_BOM = bom_of_json (s_patents (JObj [])) zero_BOM).
Proof.
  split; [split; [conforming|]|intros name; split; [conforming|vm_compute; reflexivity]]. intros b.
  assert (F : exists e, bom_of_json (s_patents (JStr "org-1")) zero_BOM = Err e) by (eexists; vm_compute; reflexivity).
  destruct F as (e & F). exists e. pose proof (SameOutcome.json_outcome (s_patents (JStr "org-1")) b zero_BOM) as O. rewrite F in O. destruct (bom_of_json (s_patents (JStr "org-1")) b); [contradiction|congruence].
Qed.
(** 1.2 does not say what urls are. *)
Theorem C42_json_items_refuted : exists j, conforms schema_1_2 (Ref "") j /\ exists e, bom_of_json j zero_BOM = Err e.
Proof.
  exists (JObj [("bomFormat", JStr "CycloneDX"); ("specVersion", JStr "1.2"); ("version", JNum "1"); ("metadata", JObj [("supplier", JObj [("url", JArr [JNum "1"])])])]).
  split; [|eexists; vm_compute; reflexivity]. conforming.
Qed.
(** For JSON Schema 1.0 is an integer; the decoder refuses it, as it refuses integers that do
    not fit in 64 bits. *)
Example C42_json_integers : (exists e, bom_of_json (JObj [("version", JNum "1.0")]) zero_BOM = Err e) /\ (exists e, bom_of_json (JObj [("version", JNum "9223372036854775808")]) zero_BOM = Err e).
Proof. split; eexists; vm_compute; reflexivity. Qed.

Definition schema_theorems := (C42_json_conforming_partial, C42_json_conforming, C42_json_texts, C42_json_classification_refuted, C42_json_asserter_refuted, C42_json_items_refuted).
Print Assumptions schema_theorems.
