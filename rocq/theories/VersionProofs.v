(** Proofs about Version.v. *)
From Verif Require Import Base Types Consts LinkModel LinkProofs Version ConvertModel ConvertSpec ConvertProofs.
From Coq Require Import Lia Permutation.
Local Open Scope string_scope.
Local Open Scope Z_scope.

Lemma version_cases sv : is_version sv = true ->
  sv = 1 \/ sv = 2 \/ sv = 3 \/ sv = 4 \/ sv = 5 \/ sv = 6 \/ sv = 7 \/ sv = 8.
Proof. unfold is_version, v1_0, v1_7. rewrite andb_true_iff, !Z.leb_le. lia. Qed.

Lemma spec_version_string sv :
  SpecVersion_String sv = if is_version sv then version_text sv else "SpecVersion(" ++ format_int sv ++ ")".
Proof.
  destruct (is_version sv) eqn:E.
  - apply version_cases in E as [->|[->|[->|[->|[->|[->|[->| ->]]]]]]]; reflexivity.
  - unfold SpecVersion_String, stringer.
    assert (H : (sv <? 1) || (Z.of_nat (length SpecVersion_index) - 1 <=? sv - 1) = true).
    { unfold is_version, v1_0, v1_7 in E. apply andb_false_iff in E.
      change (Z.of_nat (length SpecVersion_index) - 1) with 8. apply orb_true_iff.
      rewrite Z.ltb_lt, Z.leb_le. destruct E as [E|E]; apply Z.leb_gt in E; lia. }
    rewrite H. reflexivity.
Qed.

Lemma parse_spec_version_spec s sv :
  parse_spec_version s = Some sv <-> is_version sv = true /\ s = version_text sv.
Proof.
  unfold parse_spec_version, str_eqb. split.
  - repeat match goal with
    | |- (if String.eqb s ?t then _ else _) = _ -> _ =>
        destruct (String.eqb_spec s t) as [->|_]; [intros [= <-]; split; reflexivity|]
    end. discriminate.
  - intros [H ->]. apply version_cases in H as [->|[->|[->|[->|[->|[->|[->| ->]]]]]]]; reflexivity.
Qed.

Lemma spec_version_roundtrip sv : is_version sv = true -> parse_spec_version (SpecVersion_String sv) = Some sv.
Proof. intros H. apply parse_spec_version_spec. rewrite spec_version_string, H. auto. Qed.

Lemma spec_version_invalid sv : is_version sv = false -> parse_spec_version (SpecVersion_String sv) = None.
Proof.
  intros H. destruct (parse_spec_version (SpecVersion_String sv)) as [v|] eqn:E; [|reflexivity].
  apply parse_spec_version_spec in E as [Hv E]. rewrite spec_version_string, H in E.
  apply version_cases in Hv as [->|[->|[->|[->|[->|[->|[->| ->]]]]]]]; discriminate E.
Qed.

Lemma version_text_inj a b : is_version a = true -> is_version b = true -> version_text a = version_text b -> a = b.
Proof.
  intros Ha Hb E. assert (H : parse_spec_version (version_text a) = Some a) by (apply parse_spec_version_spec; auto).
  rewrite E in H. apply parse_spec_version_spec in H as [_ H].
  assert (H2 : parse_spec_version (version_text b) = Some b) by (apply parse_spec_version_spec; auto).
  assert (H3 : parse_spec_version (version_text b) = Some a) by (apply parse_spec_version_spec; auto). congruence.
Qed.

Lemma spec_version_string_inj a b :
  is_int a = true -> is_int b = true -> is_version a = true -> SpecVersion_String a = SpecVersion_String b -> a = b.
Proof.
  intros _ _ Ha E. pose proof (spec_version_roundtrip a Ha) as H. rewrite E in H.
  destruct (is_version b) eqn:Hb; [rewrite spec_version_roundtrip in H by exact Hb; congruence|].
  rewrite spec_version_invalid in H by exact Hb. discriminate.
Qed.

(** ** Namespaces *)

Lemma match_namespace_in entries ns old :
  (exists sv, In (sv, ns) entries /\ match_namespace entries ns old = sv) \/
  ((forall sv, ~ In (sv, ns) entries) /\ match_namespace entries ns old = old).
Proof.
  induction entries as [|[sv n] entries IH]; cbn [match_namespace].
  - right. split; [intros sv []|reflexivity].
  - unfold str_eqb. destruct (String.eqb_spec n ns) as [->|N].
    + left. exists sv. split; [left; reflexivity|reflexivity].
    + destruct IH as [(v & H & E)|[H E]].
      * left. exists v. split; [right; exact H|exact E].
      * right. split; [|exact E]. intros v [X|X]; [injection X; congruence|exact (H v X)].
Qed.

Lemma xml_namespaces_spec sv ns : In (sv, ns) xmlNamespaces <-> is_version sv = true /\ ns = namespace_of sv.
Proof.
  split.
  - intros H. cbn in H. repeat (destruct H as [H|H]; [injection H as <- <-; split; reflexivity|]). destruct H.
  - intros [H ->]. apply version_cases in H as [->|[->|[->|[->|[->|[->|[->| ->]]]]]]]; cbn; tauto.
Qed.

Lemma namespace_inj a b : is_version a = true -> is_version b = true -> namespace_of a = namespace_of b -> a = b.
Proof.
  intros Ha Hb E. unfold namespace_of in E. rewrite Ha, Hb in E.
  apply version_text_inj; trivial.
  cbn [append] in E. repeat match type of E with String _ _ = String _ _ => injection E as E end. exact E.
Qed.

Lemma match_namespace_spec entries ns old :
  Permutation entries xmlNamespaces ->
  (forall v, is_version v = true -> ns = namespace_of v -> match_namespace entries ns old = v) /\
  ((forall v, is_version v = true -> ns <> namespace_of v) -> match_namespace entries ns old = old).
Proof.
  intros P. destruct (match_namespace_in entries ns old) as [(sv & H & E)|[H E]]; rewrite E.
  - apply (Permutation_in _ P), xml_namespaces_spec in H as [Hv Hn]. split.
    + intros v Hv' Hn'. apply namespace_inj; congruence.
    + intros N. destruct (N sv Hv Hn).
  - split; [|reflexivity]. intros v Hv Hn. exfalso. apply (H v), (Permutation_in _ (Permutation_sym P)), xml_namespaces_spec. auto.
Qed.

Lemma with_version_err mt sv :
  (exists e, MediaType_WithVersion mt sv = Err e) <-> mt = MediaTypeJSON /\ sv < v1_2.
Proof.
  unfold MediaType_WithVersion, v1_2, SpecVersion1_2.
  destruct (Z.eqb_spec mt MediaTypeJSON) as [->|N]; cbn [andb].
  - destruct (Z.ltb_spec sv 3); split.
    + auto.
    + intros _. eexists; reflexivity.
    + intros [e E]; discriminate.
    + intros [_ L]; lia.
  - split; [intros [e E]; discriminate|intros [L _]; contradiction].
Qed.

Lemma with_version_ok sv s :
  MediaType_WithVersion MediaTypeJSON sv = Ok s -> is_version sv = true ->
  s = "application/vnd.cyclonedx+json; version=" ++ version_text sv.
Proof.
  unfold MediaType_WithVersion. destruct (_ && _)%bool; [discriminate|]. intros [= <-] H.
  rewrite spec_version_string, H. reflexivity.
Qed.

Lemma new_bom_fixpoint : convert v1_7 NewBOM = NewBOM.
Proof. vm_compute. reflexivity. Qed.
