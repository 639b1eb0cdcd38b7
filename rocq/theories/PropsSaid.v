(** Property theorems for C44: decoding a JSON document and encoding the BOM makes nothing up.
    What it means that a document says what another one says is in SaidSpec.v. *)
From Verif Require Import Base Types Univ Wt Reify Consts LinkModel Version Numbers NumbersProofs Utf8 GobModel JsonModel JsonSpec JsonText JsonTextProofs JsonTextRound JsonTextBom JsonIO JsonTextMore JsonGrammar JsonGrammarProofs ConvertSpec SchemaSpec Schemas SchemaProofs JsonOut SameOutcome SaidSpec JsonSaid PropsText PropsGrammar PropsSchema.
Local Open Scope string_scope.

(** Whatever the document is, conforming or not: what the written document says, the document
    that was read said at the same place. *)
Theorem C44_json_nothing_new : forall j c esc o, doc_utf8 j -> doc_unique j -> bom_of_json j zero_BOM = Ok c -> json_encode esc c = Ok o -> said (erase o) j.
Proof. exact nothing_new. Qed.
(** The same for texts: whatever the layout of the document that is read, the pieces in which
    it is read and the options of the encoder. *)
Theorem C44_json_texts : forall ds j c pretty esc t, ending ds = Some None -> document (bytes_of ds) j -> doc_unique j ->
  json_decode ds zero_BOM = Some (Ok c) -> json_encode_text pretty esc c = Ok t -> exists j', document t j' /\ said j' j.
Proof.
  intros ds j c pretty esc t E D Q Dc Et. apply C40_json_accepts in Dc as (j0 & D0 & B); [|exact E]. pose proof (parse_complete_grammar _ _ D) as P. pose proof (parse_complete_grammar _ _ D0) as P0. rewrite P in P0. injection P0 as <-.
  apply C40_json_written in Et as (o & Eo & Dt). exists (erase o). split; [exact Dt|]. exact (nothing_new j c esc o (parse_utf8 _ _ P) Q B Eo).
Qed.
(** Special cases to show what [said] means: a string that is not empty, and every item of a
    list of objects with such a string, was in the document that was read. *)
Theorem C44_json_strings : forall ms c esc ms' k' x, doc_utf8 (JObj ms) -> doc_unique (JObj ms) -> bom_of_json (JObj ms) zero_BOM = Ok c -> (exists o, json_encode esc c = Ok o /\ erase o = JObj ms') ->
  In (k', JStr x) ms' -> x <> "" -> exists k, In (k, JStr x) ms /\ fold_name k = fold_name k'.
Proof.
  intros ms c esc ms' k' x U Q B (o & E & Eo) Hi Nx. pose proof (nothing_new _ c esc o U Q B E) as S. rewrite Eo in S. assert (Loud : ~ silent (JStr x)) by (intros Si; inversion Si; congruence).
  inversion S as [j' j Si| | | | | |m1 m2 H]; subst.
  - exfalso. inversion Si as [| | | | |m Hs]; subst. exact (Loud (Hs _ _ Hi)).
  - destruct (H _ _ Hi) as [Si|(k & j & Hj & Fk & Sj)]; [contradiction|]. inversion Sj; subst; [contradiction|]. exists k. split; assumption.
Qed.
Theorem C44_json_lists : forall ms c esc ms' k' l' x' y' z', doc_utf8 (JObj ms) -> doc_unique (JObj ms) -> bom_of_json (JObj ms) zero_BOM = Ok c -> (exists o, json_encode esc c = Ok o /\ erase o = JObj ms') ->
  In (k', JArr l') ms' -> In (JObj x') l' -> In (y', JStr z') x' -> z' <> "" ->
  exists k l x y, In (k, JArr l) ms /\ fold_name k = fold_name k' /\ length l = length l' /\ In (JObj x) l /\ In (y, JStr z') x /\ fold_name y = fold_name y'.
Proof.
  intros ms c esc ms' k' l' x' y' z' U Q B (o & E & Eo) Hk Hx Hy Nz. pose proof (nothing_new _ c esc o U Q B E) as S. rewrite Eo in S. assert (Loud : ~ silent (JStr z')) by (intros Si; inversion Si; congruence).
  assert (Lo : ~ silent (JArr l')) by (intros Si; inversion Si; subst; contradiction).
  inversion S as [j' j Si| | | | | |m1 m2 H]; subst.
  - exfalso. inversion Si as [| | | | |m Hs]; subst. exact (Lo (Hs _ _ Hk)).
  - destruct (H _ _ Hk) as [Si|(k & j & Hj & Fk & Sj)]; [contradiction|]. inversion Sj as [| | | | |a b F|]; subst; [contradiction|].
    assert (L : length l' = length b) by (clear -F; induction F; cbn; congruence). destruct (in_split _ _ Hx) as (p & q & ->). apply Forall2_app_inv_l in F as (a2 & b2 & Fa & Fb & ->). inversion Fb as [|x1 x2 t1 t2 Hh Ht]; subst.
    inversion Hh as [j1 j2 Si| | | | | |m1 m2 G]; subst; [exfalso; inversion Si as [| | | | |m Hs]; subst; exact (Loud (Hs _ _ Hy))|].
    destruct (G _ _ Hy) as [Si|(y & jy & Hjy & Fy & Sy)]; [contradiction|]. inversion Sy; subst; [contradiction|]. exists k. exists (a2 ++ JObj m2 :: t2)%list, m2, y. split; [exact Hj|]. split; [exact Fk|]. split; [symmetry; exact L|]. split; [apply in_or_app; right; left; reflexivity|]. split; assumption.
Qed.

(** Two members of an object with the same name are merged: what is written is what neither of
    them says. So the hypothesis on names is needed. *)
Definition s_twice : json := JObj [("specVersion", JStr "1.5"); ("metadata", JObj [("timestamp", JStr "t")]); ("metadata", JObj [("component", JObj [("name", JStr "n")])])].
Lemma said_member ms' ms k' j' : said (JObj ms') (JObj ms) -> In (k', j') ms' -> ~ silent j' -> exists k j, In (k, j) ms /\ fold_name k = fold_name k' /\ said j' j.
Proof.
  intros S Hi L. inversion S as [a b Si| | | | | |m1 m2 H]; subst; [|destruct (H _ _ Hi) as [Si|X]; [contradiction|exact X]].
  exfalso. inversion Si as [| | | | |m Hs]; subst. exact (L (Hs _ _ Hi)).
Qed.
Lemma loud_member ms k j : In (k, j) ms -> ~ silent j -> ~ silent (JObj ms).
Proof. intros Hi L Si. inversion Si as [| | | | |m Hs]; subst. exact (L (Hs _ _ Hi)). Qed.
Lemma loud_string c s : ~ silent (JStr (String c s)).
Proof. intros Si. inversion Si. Qed.
Theorem C44_json_twice_refuted : exists c o, bom_of_json s_twice zero_BOM = Ok c /\ json_encode true c = Ok o /\ ~ said (erase o) s_twice.
Proof.
  eexists. eexists. split; [vm_compute; reflexivity|]. split; [vm_compute; reflexivity|]. intros S. vm_compute in S.
  apply (said_member _ _ "metadata" _) with (2 := or_intror (or_intror (or_intror (or_introl eq_refl)))) in S; [|eapply (loud_member _ "timestamp"); [left; reflexivity|apply loud_string]].
  destruct S as (k & j & Hj & Fk & S). destruct Hj as [[= <- <-]|[[= <- <-]|[[= <- <-]|[]]]]; [discriminate Fk| |].
  - apply (said_member _ _ "component" _) with (2 := or_intror (or_introl eq_refl)) in S; [|eapply (loud_member _ "name"); [right; left; reflexivity|apply loud_string]]. destruct S as (k & j & [[= <- <-]|[]] & F & _). discriminate F.
  - apply (said_member _ _ "timestamp" _) with (2 := or_introl eq_refl) in S; [|exact (loud_string _ _)]. destruct S as (k & j & [[= <- <-]|[]] & F & _). discriminate F.
Qed.

(** ** A non-trivial document meets the hypotheses *)
Example C44_json_nonvacuous : doc_utf8 s_doc16 /\ doc_unique s_doc16 /\ exists c o, bom_of_json s_doc16 zero_BOM = Ok c /\ json_encode true c = Ok o /\ ~ silent (erase o).
Proof.
  assert (ND : forall l : list string, (if List.list_eq_dec string_dec (nodup string_dec l) l then true else false) = true -> NoDup l).
  { intros l. destruct (list_eq_dec string_dec (nodup string_dec l) l) as [<-|]; [intros _; apply NoDup_nodup|discriminate]. }
  split; [|split; [|eexists; eexists; split; [vm_compute; reflexivity|split; [vm_compute; reflexivity|]]]].
  - unfold s_doc16. cbn [doc_utf8 list_all map fst snd]. repeat split; apply JsonOut.ascii_utf8; reflexivity.
  - repeat match goal with |- doc_unique _ => cbn [doc_unique s_doc16 list_all snd] | |- _ /\ _ => split | |- NoDup _ => apply ND; vm_compute; reflexivity | |- True => exact Logic.I end.
  - vm_compute. eapply (loud_member _ "specVersion"); [right; left; reflexivity|apply loud_string].
Qed.

Definition said_theorems := (C44_json_nothing_new, C44_json_texts, C44_json_strings, C44_json_lists, C44_json_twice_refuted).
Print Assumptions said_theorems.
