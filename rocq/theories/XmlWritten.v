(** Everything the encoder writes is a proper document: names that XML allows, attribute
    values and texts of allowed characters, no mixed content. *)
From Verif Require Import Base Types Univ TypeTable Wt ReifyBase Reify ReifyFacts LinkModel Version Numbers NumbersProofs JsonModel JsonProofs JsonHooks XmlModel XmlTable XmlProofs XmlRound XmlNeat XmlTop XmlText XmlTextProofs.
From Coq Require Import Lia.
Local Open Scope string_scope.

Definition name_fine (s : string) : bool := name_ok s && negb (String.eqb s "xmlns").
Definition field_fine (f : field) : bool :=
  match xml_info f with
  | Some (mkX XElement ps nm _) => forallb name_fine ps && name_fine nm
  | Some (mkX XAttribute _ nm _) => name_ok nm
  | _ => true
  end.
Definition fine_fields (fs : list field) : bool :=
  forallb field_fine fs && (negb (existsb is_chardata fs) || (negb (existsb is_element fs) && Nat.leb (length (filter is_chardata fs)) 1)) &&
  match xml_name fs with Some n => name_fine n | None => true end.

Definition proper_els (els : list xml) : Prop := Forall (fun e => is_elem e = true /\ proper e) els.
Fixpoint wtidy (n : node) : Prop :=
  match n with Node _ enc subs => (forall t omit name els, name_fine name = true -> enc t omit name = Ok els -> proper_els els) /\ list_all wtidy subs end.
Lemma wtidy_enc n t omit name els : wtidy n -> name_fine name = true -> nenc n t omit name = Ok els -> proper_els els.
Proof. destruct n. intros (H & _). apply H. Qed.
Lemma wtidy_subs n : wtidy n -> Forall wtidy (nsubs n).
Proof. destruct n. intros (_ & H). apply list_all_Forall, H. Qed.
Lemma wtidy_pointee n : wtidy n -> Forall wtidy (pointee n).
Proof. intros H. unfold pointee. apply wtidy_subs in H. destruct (nsubs n) as [|x [|? ?]]; try constructor. inversion H; subst. apply wtidy_subs; assumption. Qed.
Lemma wtidy_nil : wtidy nil_node.
Proof. split; [intros t o n els _ [= <-]; constructor|exact I]. Qed.
Lemma w_app a b : proper_els a -> proper_els b -> proper_els (a ++ b).
Proof. intros; apply Forall_app; auto. Qed.
Lemma fine_name name : name_fine name = true -> name_ok name = true /\ name <> "xmlns".
Proof. unfold name_fine. intros H. apply andb_prop in H as (A & B). split; [exact A|]. apply negb_true_iff, String.eqb_neq in B. exact B. Qed.
Lemma w_one e : is_elem e = true -> proper e -> proper_els [e].
Proof. intros. repeat constructor; assumption. Qed.
Lemma els_elem ks : proper_els ks -> forallb is_elem ks = true /\ list_all proper ks.
Proof.
  intros H. unfold proper_els in H. split.
  - apply forallb_forall. intros x X. rewrite Forall_forall in H. apply H, X.
  - apply list_all_Forall. eapply Forall_impl; [|exact H]. intros x (_ & N). exact N.
Qed.
Lemma w_elem name a ks : name_fine name = true -> Forall attr_ok a -> proper_els ks -> proper (elem name a ks).
Proof.
  intros N A H. apply fine_name in N as (N1 & N2). apply els_elem in H as (H1 & H2). cbn [elem proper]. auto 8.
Qed.
Lemma w_in name a ks : name_fine name = true -> Forall attr_ok a -> proper_els ks -> proper_els [elem name a ks].
Proof. intros. apply w_one; [reflexivity|]. apply w_elem; assumption. Qed.
Lemma proper_text s : proper_els [] /\ list_all proper (text s) /\ (forallb is_elem (text s) = true \/ exists t, text s = [XText t]).
Proof.
  split; [constructor|]. unfold text. destruct (String.eqb_spec s ""); [split; [exact I|left; reflexivity]|]. split; [|eauto]. split; [|exact I]. split; [|apply legal_clean].
  intros Q. apply (proj1 (XmlValues.clean_empty s)) in Q. congruence.
Qed.
Lemma w_texts name a s : name_fine name = true -> Forall attr_ok a -> proper_els [elem name a (text s)].
Proof.
  intros N A. apply fine_name in N as (N1 & N2). apply w_one; [reflexivity|]. cbn [elem proper]. destruct (proper_text s) as (_ & P & Q). auto 8.
Qed.
Lemma w_concat {A} (f : A -> xout) l els : (forall x, In x l -> forall e, f x = Ok e -> proper_els e) -> concat_all f l = Ok els -> proper_els els.
Proof.
  revert els. induction l as [|x l IH]; intros els H E; [injection E as <-; constructor|]. cbn [concat_all] in E.
  apply bind_ok in E as (a & A' & E). apply bind_ok in E as (b & B & E). injection E as <-. apply w_app; [apply (H x); [left; reflexivity|exact A']|].
  apply IH; [|exact B]. intros y Y. apply H. right. exact Y.
Qed.
Ltac enc_wtidy := match goal with H : nenc ?n _ _ _ = Ok ?e |- _ => refine (wtidy_enc n _ _ _ e _ _ H); [assumption|(reflexivity || assumption)] end.
Lemma w_checked n t omit name els : wtidy n -> name_fine name = true -> enc_checked n t omit name = Ok els -> proper_els els.
Proof. unfold enc_checked. intros H N E. destruct (_ && _)%bool; [injection E as <-; constructor|]. eapply wtidy_enc; [exact H|exact N|exact E]. Qed.
Lemma w_wrap ps ks : forallb name_fine ps = true -> proper_els ks -> proper_els (wrap ps ks).
Proof.
  intros N H. induction ps as [|p ps IH]; [exact H|]. cbn [forallb] in N. apply andb_prop in N as (N1 & N2). cbn [wrap fold_right]. apply w_in; [exact N1|constructor|exact (IH N2)].
Qed.
Lemma w_field f n ks : wtidy n -> field_fine f = true -> is_chardata f = false -> enc_field f n = Ok ks -> proper_els ks.
Proof.
  intros H F C E. unfold enc_field in E. unfold is_chardata in C. unfold field_fine in F. destruct (xml_info f) as [[[] ps nm o]|]; try discriminate C; try (injection E as <-; constructor).
  apply andb_prop in F as (F1 & F2).
  assert (G : bind (enc_checked n (f_ty f) o nm) (fun ks => Ok (wrap ps ks)) = Ok ks -> proper_els ks).
  { intros E'. apply bind_ok in E' as (x & X & Q). injection Q as <-. apply w_wrap; [exact F1|]. eapply w_checked; eassumption. }
  destruct (nval n) as [| | | |[]| |]; try (apply G, E). injection E as <-. constructor.
Qed.
Lemma w_fields fs : forall ns ks, forallb field_fine fs = true -> existsb is_chardata fs = false -> Forall wtidy ns -> enc_fields fs ns = Ok ks -> proper_els ks.
Proof.
  induction fs as [|f fs IH]; intros [|n ns] ks F K T E; try (injection E as <-; constructor). cbn [enc_fields] in E.
  apply bind_ok in E as (a & A & E). apply bind_ok in E as (b & B & E). injection E as <-. cbn [existsb] in K. apply Bool.orb_false_iff in K as (K1 & K2).
  cbn [forallb] in F. apply andb_prop in F as (F1 & F2). inversion T; subst. apply w_app; [eapply w_field; eassumption|]. eapply IH; eassumption.
Qed.
Lemma w_attrs fs : forall ns, forallb field_fine fs = true -> Forall attr_ok (enc_attrs fs ns).
Proof.
  induction fs as [|f fs IH]; intros [|n ns] F; try constructor. cbn [forallb] in F. apply andb_prop in F as (F1 & F2). cbn [enc_attrs]. apply Forall_app. split; [|apply IH, F2].
  unfold enc_attr. unfold field_fine in F1. destruct (xml_info f) as [[[] ps nm o]|]; try constructor. destruct (_ && _)%bool; [constructor|].
  destruct (nval n) as [| | | |[]| |]; repeat constructor; try exact F1; apply legal_clean.
Qed.
Lemma no_chardata fs : forall ns ks, existsb is_chardata fs = false -> existsb is_element fs = false -> enc_fields fs ns = Ok ks -> ks = [].
Proof.
  induction fs as [|f fs IH]; intros [|n ns] ks C K E; try (injection E as <-; reflexivity). cbn [enc_fields] in E.
  apply bind_ok in E as (a & A & E). apply bind_ok in E as (b & B & E). injection E as <-. cbn [existsb] in *. apply Bool.orb_false_iff in K as (K1 & K2), C as (C1 & C2).
  rewrite (IH _ _ C2 K2 B), app_nil_r. unfold enc_field in A. unfold is_chardata in C1. unfold is_element in K1. destruct (xml_info f) as [[[] ps nm o]|]; try discriminate; injection A as <-; reflexivity.
Qed.
Lemma one_chardata fs : forall ns ks, existsb is_element fs = false -> Nat.leb (length (filter is_chardata fs)) 1 = true -> enc_fields fs ns = Ok ks -> ks = [] \/ exists s, ks = text s.
Proof.
  induction fs as [|f fs IH]; intros [|n ns] ks K L E; try (injection E as <-; auto). cbn [enc_fields] in E.
  apply bind_ok in E as (a & A & E). apply bind_ok in E as (b & B & E). injection E as <-. cbn [existsb] in K. apply Bool.orb_false_iff in K as (K1 & K2).
  cbn [filter] in L. unfold enc_field in A. unfold is_element in K1. destruct (is_chardata f) eqn:C.
  - cbn [length] in L. assert (Z : existsb is_chardata fs = false).
    { apply Nat.leb_le in L. destruct (existsb is_chardata fs) eqn:X; [|reflexivity]. apply existsb_exists in X as (g & G1 & G2).
      assert (Y : In g (filter is_chardata fs)) by (apply filter_In; auto). destruct (filter is_chardata fs); [destruct Y|cbn in L; lia]. }
    rewrite (no_chardata fs ns b Z K2 B), app_nil_r. unfold is_chardata in C. destruct (xml_info f) as [[[] ps nm o]|]; try discriminate. injection A as <-. eauto.
  - unfold is_chardata in C. replace a with (@nil xml); [exact (IH ns b K2 L B)|]. destruct (xml_info f) as [[[] ps nm o]|]; try discriminate; injection A as <-; reflexivity.
Qed.
Lemma w_struct fs ns name els : enc_struct fs ns name = Ok els -> fine_fields fs = true -> name_fine name = true -> Forall wtidy ns -> proper_els els.
Proof.
  intros E K N T. unfold enc_struct in E. apply bind_ok in E as (ks & Ek & Q). injection Q as <-. unfold fine_fields in K. apply andb_prop in K as (K & X). apply andb_prop in K as (F & K).
  assert (Nm : name_fine (match xml_name fs with Some n => n | None => name end) = true) by (destruct (xml_name fs); assumption).
  apply Bool.orb_true_iff in K as [K|K].
  - apply negb_true_iff in K. apply w_in; [exact Nm|apply w_attrs, F|exact (w_fields fs ns ks F K T Ek)].
  - apply andb_prop in K as (K & L). apply negb_true_iff in K. destruct (one_chardata fs ns ks K L Ek) as [->|(s & ->)].
    + apply w_in; [exact Nm|apply w_attrs, F|constructor].
    + apply w_texts; [exact Nm|apply w_attrs, F].
Qed.
Lemma w_within name r els : within name r = Ok els -> name_fine name = true -> (forall ks, r = Ok ks -> proper_els ks) -> proper_els els.
Proof. intros E N H. unfold within in E. apply bind_ok in E as (ks & -> & Q). injection Q as <-. apply w_in; [exact N|constructor|apply H; reflexivity]. Qed.
Lemma w_attr n s : name_ok n = true -> attr_ok (attr n s).
Proof. intros H. split; [exact H|apply legal_clean]. Qed.
Lemma w_attr_if n s : name_ok n = true -> Forall attr_ok (attr_if n s).
Proof. intros H. unfold attr_if. destruct (String.eqb s ""); [constructor|]. constructor; [apply w_attr, H|constructor]. Qed.
Lemma w_refs n l : name_fine n = true -> proper_els (map (ref_elem n) l).
Proof. intros N. induction l as [|x l IH]; constructor; [|exact IH]. split; [reflexivity|]. apply w_elem; [exact N|constructor; [apply w_attr; reflexivity|constructor]|constructor]. Qed.
Lemma w_urls l : proper_els (map (text_elem "url") l).
Proof. induction l as [|x l IH]; constructor; [|exact IH]. pose proof (w_texts "url" [] x eq_refl (Forall_nil _)) as H. apply Forall_inv in H. exact H. Qed.
Ltac wtidies := repeat match goal with H : Forall wtidy (_ :: _) |- _ => inversion H; subst; clear H | H : Forall wtidy [] |- _ => clear H end.
Ltac attrs := repeat first [apply Forall_app; split | apply w_attr_if; reflexivity | constructor; [apply w_attr; reflexivity|] | constructor].

Ltac nm := first [assumption | reflexivity].
Ltac win := apply w_in; [nm|attrs|].
Lemma environment_written n els : wtidy n -> enc_environment n = Ok els -> proper_els els.
Proof.
  intros T E. apply wtidy_subs in T. unfold enc_environment in E. destruct (nsubs n) as [|p [|v [|? ?]]]; try discriminate. wtidies.
  destruct (_ && _)%bool; [discriminate|]. destruct (set p); [enc_wtidy|]. destruct (filled v); injection E as <-; [(apply w_texts; [nm|attrs])|constructor].
Qed.
Lemma patent_written n els : wtidy n -> enc_patent n = Ok els -> proper_els els.
Proof.
  intros T E. apply wtidy_subs in T. unfold enc_patent in E. destruct (nsubs n) as [|p [|v [|? ?]]]; try discriminate. wtidies.
  destruct (set p); [enc_wtidy|]. destruct (set v); [enc_wtidy|]. injection E as <-. constructor.
Qed.
Lemma detail_written n els : wtidy n -> enc_detail n = Ok els -> proper_els els.
Proof.
  intros T E. apply wtidy_subs in T. unfold enc_detail in E. destruct (nsubs n) as [|a [|b [|c [|d [|? ?]]]]]; try discriminate. wtidies.
  eapply w_struct; [exact E| |nm|repeat constructor]; auto.
Qed.
Lemma choice_written n els : wtidy n -> enc_choice n = Ok els -> proper_els els.
Proof.
  intros T E. apply wtidy_subs in T. unfold enc_choice in E. destruct (nsubs n) as [|a [|b [|c [|d [|e [|f [|g [|? ?]]]]]]]]; try discriminate. wtidies.
  destruct (_ && _)%bool; [discriminate|]. destruct (set a); [enc_wtidy|]. destruct (filled b); [|injection E as <-; constructor].
  destruct (set c); [|injection E as <-; (apply w_texts; [nm|attrs])]. apply bind_ok in E as (ks & Ek & Q). injection Q as <-. win.
  apply (w_concat _ _ _) in Ek; [exact Ek|]. intros x X y Y. eapply detail_written; [|exact Y].
  pose proof (wtidy_pointee c ltac:(assumption)) as P. rewrite Forall_forall in P. apply P, X.
Qed.
Lemma written_method m fs v ns name els : m <> MNone -> (m = MLicense \/ m = MIKEv2 -> fine_fields fs = true) -> name_fine name = true -> Forall wtidy ns -> marshal m fs v ns name = Ok els -> proper_els els.
Proof.
  intros Nm K N T E. destruct m; try congruence; cbn [marshal] in E.
  - injection E as <-. apply (w_refs name [str_of v] N).
  - destruct ns as [|a [|? ?]]; try discriminate. injection E as <-. (apply w_texts; [nm|attrs]).
  - destruct ns as [|a [|b [|c [|? ?]]]]; try discriminate. injection E as <-. win; apply w_app; apply w_refs; reflexivity.
  - destruct ns as [|n ns]; [injection E as <-; constructor|]. eapply w_within; [exact E|nm|]. intros ks Ek. eapply w_concat; [|exact Ek].
    intros x X y Y. eapply environment_written; [|exact Y]. rewrite Forall_forall in T. apply T, X.
  - destruct ns as [|a [|b [|c ns]]]; try discriminate. destruct (_ && _)%bool; [discriminate|]. destruct (negb _); [discriminate|]. eapply w_struct; [exact E| |nm|exact T]; auto.
  - destruct ns as [|n ns]; [injection E as <-; constructor|]. eapply w_within; [exact E|nm|]. intros ks Ek. eapply w_concat; [|exact Ek].
    intros x X y Y. eapply choice_written; [|exact Y]. rewrite Forall_forall in T. apply T, X.
  - destruct ns as [|a [|b [|? ?]]]; try discriminate. wtidies. destruct (filled a); [eapply w_struct; [exact E| |nm|repeat constructor]; auto|].
    destruct (set b); [enc_wtidy|]. injection E as <-. constructor.
  - injection E as <-. (apply w_texts; [nm|attrs]).
  - destruct ns as [|a [|b [|? ?]]]; try discriminate. wtidies. destruct (_ && _)%bool; [discriminate|].
    destruct (set a); [eapply w_struct; [exact E| |nm|apply wtidy_pointee]; [reflexivity|assumption]|].
    destruct (set b); [eapply w_struct; [exact E| |nm|apply wtidy_pointee]; [reflexivity|assumption]|]. injection E as <-. constructor.
  - destruct ns as [|a [|b [|? ?]]]; try discriminate. wtidies. destruct (_ && _)%bool; [discriminate|].
    destruct (set a); [eapply w_struct; [exact E| |nm|apply wtidy_pointee]; [reflexivity|assumption]|].
    destruct (set b); [eapply w_struct; [exact E| |nm|apply wtidy_pointee]; [reflexivity|assumption]|]. injection E as <-. constructor.
  - destruct ns as [|a [|b [|c [|? ?]]]]; try discriminate. wtidies. destruct (_ && _)%bool; [discriminate|].
    destruct (set a); [eapply w_within; [exact E|nm|]; intros; enc_wtidy|].
    destruct (set b); [eapply w_within; [exact E|nm|]; intros; enc_wtidy|].
    destruct (set c); [eapply w_within; [exact E|nm|]; intros; enc_wtidy|]. injection E as <-. constructor.
  - destruct ns as [|a ns]; try discriminate. destruct (filled a); [injection E as <-; (apply w_texts; [nm|attrs])|]. eapply w_struct; [exact E| |nm|exact T]; auto.
  - destruct ns as [|a [|b [|c [|? ?]]]]; try discriminate. wtidies. destruct (_ && _)%bool; [discriminate|].
    destruct (set a); [eapply w_struct; [exact E|reflexivity|nm|repeat (constructor; [assumption || apply wtidy_nil|]); constructor]|].
    destruct (_ || _)%bool; [eapply w_struct; [exact E|reflexivity|nm|repeat (constructor; [assumption || apply wtidy_nil|]); constructor]|]. injection E as <-. constructor.
  - destruct ns as [|a [|b [|c [|d [|e [|? ?]]]]]]; try discriminate. wtidies. destruct (_ || _)%bool; [|injection E as <-; constructor].
    apply bind_ok in E as (ids & Ei & E). apply bind_ok in E as (ks & Ek & E). injection E as <-. win; apply w_app.
    + pose proof (wtidy_pointee a ltac:(assumption)) as P. destruct (pointee a) as [|one [|many [|? ?]]]; try (injection Ei as <-; constructor). wtidies.
      destruct (set many); [enc_wtidy|]. destruct (set one); [enc_wtidy|]. injection Ei as <-. constructor.
    + refine (w_fields _ _ _ _ _ _ Ek); [reflexivity|reflexivity|repeat constructor; assumption].
  - destruct ns as [|a [|b [|c [|d [|e [|f [|g [|? ?]]]]]]]]; try discriminate. wtidies. apply bind_ok in E as (gov & Eg & E). injection E as <-. win. repeat apply w_app.
    + destruct (_ || _)%bool; [(apply w_texts; [nm|attrs])|constructor].
    + destruct (set e); [enc_wtidy|injection Eg as <-; constructor].
    + destruct (strings (nval f)) as [|s l]; [constructor|]. win. apply (w_urls (s :: l)).
    + destruct (strings (nval g)) as [|s l]; [constructor|]. win. apply (w_urls (s :: l)).
  - destruct ns as [|a [|b [|? ?]]]; try discriminate. wtidies. apply bind_ok in E as (x & Ex & E). apply bind_ok in E as (y & Ey & E). injection E as <-. win; apply w_app.
    + destruct (set a); [|injection Ex as <-; constructor]. eapply w_within; [exact Ex|nm|]. intros ks Ek. eapply w_concat; [|exact Ek]. intros z Z e Ee. refine (wtidy_enc _ _ _ _ _ _ _ Ee); [|reflexivity].
      pose proof (wtidy_pointee a ltac:(assumption)) as P. rewrite Forall_forall in P. apply P, Z.
    + destruct (set b); [|injection Ey as <-; constructor]. eapply w_within; [exact Ey|nm|]. intros ks Ek. eapply w_concat; [|exact Ek]. intros z Z e Ee. eapply patent_written; [|exact Ee].
      pose proof (wtidy_pointee b ltac:(assumption)) as P. rewrite Forall_forall in P. apply P, Z.
Qed.

Lemma defs_fine : forallb (fun d => match snd d with DStruct fs => String.eqb (fst d) "DataClassification" || fine_fields fs | DAlias _ => true end) defs = true.
Proof. vm_compute. reflexivity. Qed.
Lemma fine_kinds t : marshaler t <> MData -> fine_fields (fields_of t) = true.
Proof.
  intros M. unfold fields_of. destruct (kind_of t) as [| | | | | |fs|] eqn:K; try reflexivity. destruct (kind_struct_in t fs K) as (n & -> & I).
  pose proof defs_fine as D. rewrite forallb_forall in D. specialize (D _ I). cbn [fst snd] in D. apply Bool.orb_true_iff in D as [D|D]; [|exact D].
  apply String.eqb_eq in D. subst n. exfalso. apply M. reflexivity.
Qed.
Lemma w_encode v subs t omit name els : name_fine name = true -> Forall wtidy subs -> encode v subs t omit name = Ok els -> proper_els els.
Proof.
  intros N T E. unfold encode in E.
  assert (G : match marshaler t with MNone => match v with VSlice _ => concat_all (fun n => enc_checked n (elem_ty t) omit name) subs | VStruct _ => enc_struct (fields_of t) subs name | _ => Ok [text_elem name (simple v)] end
              | m => marshal m (fields_of t) v subs name end = Ok els -> proper_els els).
  { intros E'. destruct (marshaler t) eqn:M; try (eapply written_method in E'; [exact E'|discriminate|intros [|]; discriminate || (apply fine_kinds; rewrite M; discriminate)|exact N|exact T]).
    destruct v; try (injection E' as <-; apply w_texts; [nm|attrs]); [|eapply w_struct; [exact E'|apply fine_kinds; rewrite M; discriminate|nm|exact T]].
    eapply w_concat; [|exact E']. intros x X e Ee. eapply w_checked; [|exact N|exact Ee]. rewrite Forall_forall in T. apply T, X. }
  destruct v as [| | | |[x|]| |]; try (apply G; destruct subs; exact E).
  - destruct subs as [|n [|? ?]]; try (apply G, E). inversion T; subst. enc_wtidy.
  - injection E as <-. constructor.
Qed.
Lemma all_wtidy v : wtidy (annotate v).
Proof.
  induction v as [s|z|b|f| |x IH| |l IH|vs IH] using val_induction; cbn [annotate wtidy].
  1-5: split; [intros t o n els N E; eapply w_encode; [exact N| |exact E]; constructor|exact I].
  - split; [intros t o n els N E; eapply w_encode; [exact N| |exact E]; repeat constructor; exact IH|split; [exact IH|exact I]].
  - split; [intros t o n els N E; eapply w_encode; [exact N| |exact E]; constructor|exact I].
  - assert (F : Forall wtidy (map annotate l)) by (apply Forall_forall; intros y Y; apply in_map_iff in Y as (z & <- & Y); rewrite Forall_forall in IH; apply IH, Y).
    split; [intros t o n els N E; eapply w_encode; [exact N| |exact E]; exact F|apply list_all_Forall, F].
  - assert (F : Forall wtidy (map annotate vs)) by (apply Forall_forall; intros y Y; apply in_map_iff in Y as (z & <- & Y); rewrite Forall_forall in IH; apply IH, Y).
    split; [intros t o n els N E; eapply w_encode; [exact N| |exact E]; exact F|apply list_all_Forall, F].
Qed.
Theorem bom_written b els : bom_to_xml b = Ok els -> proper_els els.
Proof. intros E. unfold bom_to_xml in E. refine (wtidy_enc _ _ _ _ _ _ _ E); [apply all_wtidy|reflexivity]. Qed.

(** ** Documents *)
Lemma header_read r st fuel : build (2 + fuel) (xml_header ++ String "<" r) st =
  build fuel (String "<" r) (match st with [] => [] | f :: st' => add_kid (XText (String "010" "")) f :: st' end).
Proof. destruct st; reflexivity. Qed.
(** What Encode writes is parsed as the tree that stands for it, compact or indented, to
    the last byte. *)
Lemma document_read pretty b s : xml_encode_text pretty b = Ok s ->
  exists e, bom_to_xml b = Ok [e] /\ s = xml_header ++ xml_text pretty 0 e /\ build (S (String.length s)) s [] = Some (xml_seen pretty e, "").
Proof.
  unfold xml_encode_text. intros E. apply bind_ok in E as (els & E & Q). assert (Z : s = xml_header ++ concat_map (xml_text pretty 0) els) by congruence. subst s. clear Q. destruct (root_attrs b els E) as (rest & ks & -> & _).
  pose proof (bom_written b _ E) as P. apply Forall_inv in P as (El & P). set (e := XElem "" "bom" _ ks) in *. exists e. split; [exact E|]. cbn [concat_map]. rewrite append_nil_r. split; [reflexivity|].
  destruct (text_head pretty 0 e El) as (t & T).
  replace (S (String.length (xml_header ++ xml_text pretty 0 e))) with (2 + (String.length (xml_header ++ xml_text pretty 0 e) - 1))%nat by (rewrite length_app_s; cbn; lia).
  set (fuel := (String.length (xml_header ++ xml_text pretty 0 e) - 1)%nat). assert (F : (String.length (xml_text pretty 0 e ++ "") <= fuel)%nat).
  { unfold fuel. rewrite append_nil_r, length_app_s. cbn. lia. }
  clearbody fuel. rewrite T, header_read, <- T. rewrite <- (append_nil_r (xml_text pretty 0 e)). rewrite (parse_element pretty e "" El P fuel F). reflexivity.
Qed.
Theorem document_parses pretty b s : xml_encode_text pretty b = Ok s -> exists e, bom_to_xml b = Ok [e] /\ s = xml_header ++ xml_text pretty 0 e /\ xml_parse s = Some (xml_seen pretty e).
Proof. intros E. destruct (document_read pretty b s E) as (e & B & S & R). exists e. split; [exact B|]. split; [exact S|]. unfold xml_parse. rewrite R. reflexivity. Qed.
Lemma document_build pretty b s : xml_encode_text pretty b = Ok s -> exists x, build (S (String.length s)) s [] = Some (x, "").
Proof. intros E. destruct (document_read pretty b s E) as (e & _ & _ & R). eauto. Qed.
