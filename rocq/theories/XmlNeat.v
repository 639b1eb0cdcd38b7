(** Documents as they are written and as they are seen. *)
From Verif Require Import Base Types Univ TypeTable Wt ReifyBase Reify ReifyFacts Consts LinkModel Version Numbers NumbersProofs JsonModel JsonProofs JsonHooks XmlModel XmlBack XmlTable XmlSpec XmlValues XmlProofs XmlPairs XmlStructs XmlSelf XmlHooks XmlLists XmlEvidence XmlRound.
From Coq Require Import Lia.
Local Open Scope string_scope.

(** ** Written documents have no mixed content *)
Fixpoint neat (x : xml) : Prop :=
  match x with
  | XText _ => True
  | XElem _ _ _ kids => (existsb is_elem kids = true -> forallb is_elem kids = true) /\ list_all neat kids
  end.
Definition neat_els (els : list xml) : Prop := Forall (fun e => is_elem e = true /\ neat e) els.
Fixpoint tidy (n : node) : Prop :=
  match n with Node _ enc subs => (forall t omit name els, enc t omit name = Ok els -> neat_els els) /\ list_all tidy subs end.
Lemma tidy_enc n t omit name els : tidy n -> nenc n t omit name = Ok els -> neat_els els.
Proof. destruct n. intros (H & _). apply H. Qed.
Lemma tidy_subs n : tidy n -> Forall tidy (nsubs n).
Proof. destruct n. intros (_ & H). apply list_all_Forall, H. Qed.
Lemma tidy_pointee n : tidy n -> Forall tidy (pointee n).
Proof. intros H. unfold pointee. apply tidy_subs in H. destruct (nsubs n) as [|x [|? ?]]; try constructor. inversion H; subst. apply tidy_subs; assumption. Qed.
Lemma tidy_nil : tidy nil_node.
Proof. split; [intros t o n els [= <-]; constructor|exact I]. Qed.
Lemma neat_app a b : neat_els a -> neat_els b -> neat_els (a ++ b).
Proof. intros; apply Forall_app; auto. Qed.
Lemma neat_elem name a ks : neat_els ks -> neat (elem name a ks).
Proof.
  intros H. cbn [elem neat]. split.
  - intros _. apply forallb_forall. intros x X. unfold neat_els in H. rewrite Forall_forall in H. apply H, X.
  - apply list_all_Forall. eapply Forall_impl; [|exact H]. intros x (_ & N). exact N.
Qed.
Lemma neat_one e : is_elem e = true -> neat e -> neat_els [e].
Proof. intros. repeat constructor; assumption. Qed.
Lemma neat_in name a ks : neat_els ks -> neat_els [elem name a ks].
Proof. intros H. apply neat_one; [reflexivity|apply neat_elem, H]. Qed.
Lemma neat_texts name a s : neat_els [elem name a (text s)].
Proof.
  apply neat_one; [reflexivity|]. cbn [elem neat]. unfold text. destruct (String.eqb s ""); cbn; repeat split; discriminate.
Qed.
Lemma neat_concat {A} (f : A -> xout) l els : (forall x, In x l -> forall e, f x = Ok e -> neat_els e) -> concat_all f l = Ok els -> neat_els els.
Proof.
  revert els. induction l as [|x l IH]; intros els H E; [injection E as <-; constructor|]. cbn [concat_all] in E.
  apply bind_ok in E as (a & A' & E). apply bind_ok in E as (b & B & E). injection E as <-. apply neat_app; [apply (H x); [left; reflexivity|exact A']|].
  apply IH; [|exact B]. intros y Y. apply H. right. exact Y.
Qed.
Ltac enc_tidy := match goal with H : nenc ?n _ _ _ = Ok ?e |- _ => eapply (tidy_enc n); [assumption|exact H] end.
Definition one_kind (fs : list field) : bool := negb (existsb is_chardata fs) || negb (existsb is_element fs).
Lemma neat_checked n t omit name els : tidy n -> enc_checked n t omit name = Ok els -> neat_els els.
Proof. unfold enc_checked. intros H E. destruct (_ && _)%bool; [injection E as <-; constructor|]. eapply tidy_enc; [exact H|exact E]. Qed.
Lemma neat_wrap ps ks : neat_els ks -> neat_els (wrap ps ks).
Proof. intros H. induction ps as [|p ps IH]; [exact H|]. cbn [wrap fold_right]. apply neat_in, IH. Qed.
Lemma neat_field f n ks : tidy n -> is_chardata f = false -> enc_field f n = Ok ks -> neat_els ks.
Proof.
  intros H C E. unfold enc_field in E. unfold is_chardata in C. destruct (xml_info f) as [[[] ps nm o]|]; try discriminate C; try (injection E as <-; constructor).
  assert (G : bind (enc_checked n (f_ty f) o nm) (fun ks => Ok (wrap ps ks)) = Ok ks -> neat_els ks).
  { intros E'. apply bind_ok in E' as (x & X & Q). injection Q as <-. apply neat_wrap. eapply neat_checked; eassumption. }
  destruct (nval n) as [| | | |[]| |]; try (apply G, E). injection E as <-. constructor.
Qed.
Lemma texts_field f n ks : is_element f = false -> enc_field f n = Ok ks -> existsb is_elem ks = false /\ list_all neat ks.
Proof.
  intros C E. unfold enc_field in E. unfold is_element in C. destruct (xml_info f) as [[[] ps nm o]|]; try discriminate C; injection E as <-; try (split; [reflexivity|exact I]).
  unfold text. destruct (String.eqb _ _); repeat split.
Qed.
Lemma fields_neat fs : forall ns ks, existsb is_chardata fs = false -> Forall tidy ns -> enc_fields fs ns = Ok ks -> neat_els ks.
Proof.
  induction fs as [|f fs IH]; intros [|n ns] ks K T E; try (injection E as <-; constructor). cbn [enc_fields] in E.
  apply bind_ok in E as (a & A & E). apply bind_ok in E as (b & B & E). injection E as <-. cbn [existsb] in K. apply Bool.orb_false_iff in K as (K1 & K2).
  inversion T; subst. apply neat_app; [eapply neat_field; eassumption|]. eapply IH; eassumption.
Qed.
Lemma neat_struct fs ns name els : one_kind fs = true -> Forall tidy ns -> enc_struct fs ns name = Ok els -> neat_els els.
Proof.
  intros K T E. unfold enc_struct in E. apply bind_ok in E as (ks & Ek & Q). injection Q as <-. apply neat_one; [reflexivity|].
  unfold one_kind in K. apply Bool.orb_true_iff in K as [K|K]; apply negb_true_iff in K.
  - apply neat_elem. exact (fields_neat fs ns ks K T Ek).
  - assert (G : existsb is_elem ks = false /\ list_all neat ks).
    { revert ns ks T K Ek. induction fs as [|f fs IH]; intros [|n ns] ks T K E; try (injection E as <-; split; [reflexivity|exact I]). cbn [enc_fields] in E.
      apply bind_ok in E as (a & A & E). apply bind_ok in E as (b & B & E). injection E as <-. cbn [existsb] in K. apply Bool.orb_false_iff in K as (K1 & K2).
      inversion T; subst. destruct (IH ns b) as (E1 & N1); auto. destruct (texts_field f n a K1 A) as (E2 & N2). split.
      - rewrite existsb_app, E1, E2. reflexivity.
      - apply list_all_Forall. apply list_all_Forall in N1, N2. apply Forall_app. auto. }
    destruct G as (G1 & G2). cbn [elem neat]. split; [congruence|exact G2].
Qed.
Lemma neat_within name r els : (forall ks, r = Ok ks -> neat_els ks) -> within name r = Ok els -> neat_els els.
Proof. intros H E. unfold within in E. apply bind_ok in E as (ks & -> & Q). injection Q as <-. apply neat_in, H. reflexivity. Qed.
Lemma neat_refs n l : neat_els (map (ref_elem n) l).
Proof. induction l as [|x l IH]; constructor; [|exact IH]. split; [reflexivity|]. apply neat_elem. constructor. Qed.
Lemma neat_urls l : neat_els (map (text_elem "url") l).
Proof. induction l as [|x l IH]; constructor; [|exact IH]. pose proof (neat_texts "url" [] x) as H. apply Forall_inv in H. exact H. Qed.
Ltac tidies := repeat match goal with H : Forall tidy (_ :: _) |- _ => inversion H; subst; clear H | H : Forall tidy [] |- _ => clear H end.
Lemma environment_neat n els : tidy n -> enc_environment n = Ok els -> neat_els els.
Proof.
  intros T E. apply tidy_subs in T. unfold enc_environment in E. destruct (nsubs n) as [|p [|v [|? ?]]]; try discriminate. tidies.
  destruct (_ && _)%bool; [discriminate|]. destruct (set p); [enc_tidy|]. destruct (filled v); injection E as <-; [apply neat_texts|constructor].
Qed.
Lemma patent_neat n els : tidy n -> enc_patent n = Ok els -> neat_els els.
Proof.
  intros T E. apply tidy_subs in T. unfold enc_patent in E. destruct (nsubs n) as [|p [|v [|? ?]]]; try discriminate. tidies.
  destruct (set p); [enc_tidy|]. destruct (set v); [enc_tidy|]. injection E as <-. constructor.
Qed.
Lemma detail_neat n els : tidy n -> enc_detail n = Ok els -> neat_els els.
Proof.
  intros T E. apply tidy_subs in T. unfold enc_detail in E. destruct (nsubs n) as [|a [|b [|c [|d [|? ?]]]]]; try discriminate. tidies.
  eapply neat_struct; [|repeat constructor|exact E]; auto.
Qed.
Lemma choice_neat n els : tidy n -> enc_choice n = Ok els -> neat_els els.
Proof.
  intros T E. apply tidy_subs in T. unfold enc_choice in E. destruct (nsubs n) as [|a [|b [|c [|d [|e [|f [|g [|? ?]]]]]]]]; try discriminate. tidies.
  destruct (_ && _)%bool; [discriminate|]. destruct (set a); [enc_tidy|]. destruct (filled b); [|injection E as <-; constructor].
  destruct (set c); [|injection E as <-; apply neat_texts]. apply bind_ok in E as (ks & Ek & Q). injection Q as <-. apply neat_in.
  apply (neat_concat _ _ _) in Ek; [exact Ek|]. intros x X y Y. eapply detail_neat; [|exact Y].
  pose proof (tidy_pointee c ltac:(assumption)) as P. rewrite Forall_forall in P. apply P, X.
Qed.
Lemma neat_method m fs v ns name els : m <> MNone -> (m = MLicense \/ m = MIKEv2 -> one_kind fs = true) -> Forall tidy ns -> marshal m fs v ns name = Ok els -> neat_els els.
Proof.
  intros Nm K T E. destruct m; try congruence; cbn [marshal] in E.
  - injection E as <-. apply (neat_refs name [str_of v]).
  - destruct ns as [|a [|? ?]]; try discriminate. injection E as <-. apply neat_texts.
  - destruct ns as [|a [|b [|c [|? ?]]]]; try discriminate. injection E as <-. apply neat_in, neat_app; apply neat_refs.
  - destruct ns as [|n ns]; [injection E as <-; constructor|]. eapply neat_within; [|exact E]. intros ks Ek. eapply neat_concat; [|exact Ek].
    intros x X y Y. eapply environment_neat; [|exact Y]. rewrite Forall_forall in T. apply T, X.
  - destruct ns as [|a [|b [|c ns]]]; try discriminate. destruct (_ && _)%bool; [discriminate|]. destruct (negb _); [discriminate|]. eapply neat_struct; [|exact T|exact E]. auto.
  - destruct ns as [|n ns]; [injection E as <-; constructor|]. eapply neat_within; [|exact E]. intros ks Ek. eapply neat_concat; [|exact Ek].
    intros x X y Y. eapply choice_neat; [|exact Y]. rewrite Forall_forall in T. apply T, X.
  - destruct ns as [|a [|b [|? ?]]]; try discriminate. tidies. destruct (filled a); [eapply neat_struct; [|repeat constructor|exact E]; auto|].
    destruct (set b); [enc_tidy|]. injection E as <-. constructor.
  - injection E as <-. apply neat_texts.
  - destruct ns as [|a [|b [|? ?]]]; try discriminate. tidies. destruct (_ && _)%bool; [discriminate|].
    destruct (set a); [eapply neat_struct; [|apply tidy_pointee|exact E]; [reflexivity|assumption]|].
    destruct (set b); [eapply neat_struct; [|apply tidy_pointee|exact E]; [reflexivity|assumption]|]. injection E as <-. constructor.
  - destruct ns as [|a [|b [|? ?]]]; try discriminate. tidies. destruct (_ && _)%bool; [discriminate|].
    destruct (set a); [eapply neat_struct; [|apply tidy_pointee|exact E]; [reflexivity|assumption]|].
    destruct (set b); [eapply neat_struct; [|apply tidy_pointee|exact E]; [reflexivity|assumption]|]. injection E as <-. constructor.
  - destruct ns as [|a [|b [|c [|? ?]]]]; try discriminate. tidies. destruct (_ && _)%bool; [discriminate|].
    destruct (set a); [eapply neat_within; [|exact E]; intros; enc_tidy|].
    destruct (set b); [eapply neat_within; [|exact E]; intros; enc_tidy|].
    destruct (set c); [eapply neat_within; [|exact E]; intros; enc_tidy|]. injection E as <-. constructor.
  - destruct ns as [|a ns]; try discriminate. destruct (filled a); [injection E as <-; apply neat_texts|]. eapply neat_struct; [|exact T|exact E]. auto.
  - destruct ns as [|a [|b [|c [|? ?]]]]; try discriminate. tidies. destruct (_ && _)%bool; [discriminate|].
    destruct (set a); [eapply neat_struct; [|repeat constructor|exact E]; auto using tidy_nil|].
    destruct (_ || _)%bool; [eapply neat_struct; [|repeat constructor|exact E]; auto using tidy_nil|]. injection E as <-. constructor.
  - destruct ns as [|a [|b [|c [|d [|e [|? ?]]]]]]; try discriminate. tidies. destruct (_ || _)%bool; [|injection E as <-; constructor].
    apply bind_ok in E as (ids & Ei & E). apply bind_ok in E as (ks & Ek & E). injection E as <-. apply neat_in, neat_app.
    + pose proof (tidy_pointee a ltac:(assumption)) as P. destruct (pointee a) as [|one [|many [|? ?]]]; try (injection Ei as <-; constructor). tidies.
      destruct (set many); [enc_tidy|]. destruct (set one); [enc_tidy|]. injection Ei as <-. constructor.
    + eapply fields_neat; [|repeat constructor|exact Ek]; auto.
  - destruct ns as [|a [|b [|c [|d [|e [|f [|g [|? ?]]]]]]]]; try discriminate. tidies. apply bind_ok in E as (gov & Eg & E). injection E as <-. apply neat_in. repeat apply neat_app.
    + destruct (_ || _)%bool; [apply neat_texts|constructor].
    + destruct (set e); [enc_tidy|injection Eg as <-; constructor].
    + destruct (strings (nval f)) as [|s l]; [constructor|]. apply neat_in. apply (neat_urls (s :: l)).
    + destruct (strings (nval g)) as [|s l]; [constructor|]. apply neat_in. apply (neat_urls (s :: l)).
  - destruct ns as [|a [|b [|? ?]]]; try discriminate. tidies. apply bind_ok in E as (x & Ex & E). apply bind_ok in E as (y & Ey & E). injection E as <-. apply neat_in, neat_app.
    + destruct (set a); [|injection Ex as <-; constructor]. eapply neat_within; [|exact Ex]. intros ks Ek. eapply neat_concat; [|exact Ek]. intros z Z e Ee. eapply tidy_enc; [|exact Ee].
      pose proof (tidy_pointee a ltac:(assumption)) as P. rewrite Forall_forall in P. apply P, Z.
    + destruct (set b); [|injection Ey as <-; constructor]. eapply neat_within; [|exact Ey]. intros ks Ek. eapply neat_concat; [|exact Ek]. intros z Z e Ee. eapply patent_neat; [|exact Ee].
      pose proof (tidy_pointee b ltac:(assumption)) as P. rewrite Forall_forall in P. apply P, Z.
Qed.
Lemma defs_kinds : forallb (fun d => match snd d with DStruct fs => String.eqb (fst d) "DataClassification" || one_kind fs | DAlias _ => true end) defs = true.
Proof. vm_compute. reflexivity. Qed.
Lemma kinds t : marshaler t <> MData -> one_kind (fields_of t) = true.
Proof.
  intros M. unfold fields_of. destruct (kind_of t) as [| | | | | |fs|] eqn:K; try reflexivity. destruct (kind_struct_in t fs K) as (n & -> & I).
  pose proof defs_kinds as D. rewrite forallb_forall in D. specialize (D _ I). cbn [fst snd] in D. apply Bool.orb_true_iff in D as [D|D]; [|exact D].
  apply String.eqb_eq in D. subst n. exfalso. apply M. reflexivity.
Qed.
Lemma neat_encode v subs t omit name els : Forall tidy subs -> encode v subs t omit name = Ok els -> neat_els els.
Proof.
  intros T E. unfold encode in E.
  assert (G : match marshaler t with MNone => match v with VSlice _ => concat_all (fun n => enc_checked n (elem_ty t) omit name) subs | VStruct _ => enc_struct (fields_of t) subs name | _ => Ok [text_elem name (simple v)] end
              | m => marshal m (fields_of t) v subs name end = Ok els -> neat_els els).
  { intros E'. destruct (marshaler t) eqn:M; try (eapply neat_method in E'; [exact E'|discriminate|intros [|]; discriminate || (apply kinds; rewrite M; discriminate)|exact T]).
    destruct v; try (injection E' as <-; apply neat_texts); [|eapply neat_struct; [apply kinds; rewrite M; discriminate|exact T|exact E']].
    eapply neat_concat; [|exact E']. intros x X e Ee. eapply neat_checked; [|exact Ee]. rewrite Forall_forall in T. apply T, X. }
  destruct v as [| | | |[x|]| |]; try (apply G; destruct subs; exact E).
  - destruct subs as [|n [|? ?]]; try (apply G, E). inversion T; subst. enc_tidy.
  - injection E as <-. constructor.
Qed.
Lemma all_tidy v : tidy (annotate v).
Proof.
  induction v as [s|z|b|f| |x IH| |l IH|vs IH] using val_induction; cbn [annotate tidy].
  1-5: split; [intros t o n els E; eapply neat_encode; [|exact E]; constructor|exact I].
  - split; [intros t o n els E; eapply neat_encode; [|exact E]; repeat constructor; exact IH|split; [exact IH|exact I]].
  - split; [intros t o n els E; eapply neat_encode; [|exact E]; constructor|exact I].
  - assert (F : Forall tidy (map annotate l)) by (apply Forall_forall; intros y Y; apply in_map_iff in Y as (z & <- & Y); rewrite Forall_forall in IH; apply IH, Y).
    split; [intros t o n els E; eapply neat_encode; [|exact E]; exact F|apply list_all_Forall, F].
  - assert (F : Forall tidy (map annotate vs)) by (apply Forall_forall; intros y Y; apply in_map_iff in Y as (z & <- & Y); rewrite Forall_forall in IH; apply IH, Y).
    split; [intros t o n els E; eapply neat_encode; [|exact E]; exact F|apply list_all_Forall, F].
Qed.

(** ** What the decoder sees *)
Lemma xml_induction (P : xml -> Prop) : (forall s, P (XText s)) -> (forall sp l a ks, Forall P ks -> P (XElem sp l a ks)) -> forall x, P x.
Proof.
  intros Ht He. fix self 1. intros [s|sp l a ks]; [apply Ht|]. apply He. induction ks as [|k ks IH]; constructor; [apply self|exact IH].
Qed.
Lemma resolve_elem ns x : is_elem (resolve ns x) = is_elem x.
Proof. destruct x; reflexivity. Qed.
Lemma resolve_filter ns ks : filter is_elem (map (resolve ns) ks) = map (resolve ns) (filter is_elem ks).
Proof. induction ks as [|k ks IH]; [reflexivity|]. cbn [map filter]. rewrite resolve_elem. destruct (is_elem k); cbn [map]; rewrite IH; reflexivity. Qed.
Lemma resolve_blank ns ks : forallb blank_text (map (resolve ns) ks) = forallb blank_text ks.
Proof. induction ks as [|[s|sp l a k] ks IH]; [reflexivity| |]; cbn [map forallb]; rewrite IH; reflexivity. Qed.
Lemma resolve_texts ns ks : existsb is_elem ks = false -> map (resolve ns) ks = ks.
Proof. induction ks as [|[s|sp l a k] ks IH]; intros H; [reflexivity| |discriminate]. cbn [map resolve]. rewrite IH by exact H. reflexivity. Qed.
Lemma seen_resolve x : forall ns y, seen x y -> seen x (resolve ns y).
Proof.
  induction x as [s|sp l a ks IH] using xml_induction; intros ns y H; inversion H as [? sp' ? ? ? N|? sp' ? ? ? ks' N F B]; subst; cbn [resolve].
  - rewrite resolve_texts by exact N. constructor. exact N.
  - apply seen_node; [exact N| |rewrite resolve_blank; exact B]. rewrite resolve_filter. clear H N B.
    set (ns' := match assoc "xmlns" a with Some n => n | None => ns end). clearbody ns'. revert F. generalize (filter is_elem ks'). induction IH as [|k ks Hk _ IH]; intros ys F; inversion F; subst; [constructor|].
    cbn [map]. constructor; [apply Hk; assumption|]. apply IH; assumption.
Qed.
Lemma seen_refl x : is_elem x = true -> neat x -> seen x x.
Proof.
  induction x as [s|sp l a ks IH] using xml_induction; intros E N; [discriminate|]. destruct N as (M & N). destruct (existsb is_elem ks) eqn:X; [|constructor; exact X].
  specialize (M eq_refl). apply seen_node; [intros ->; discriminate| |].
  - rewrite elems_filter by exact M. clear X. apply list_all_Forall in N. induction IH as [|k ks Hk _ IH]; constructor; cbn [forallb] in M; apply andb_prop in M as (M1 & M2); inversion N; subst; auto.
  - clear - M. induction ks as [|[|] ks IH]; [reflexivity|discriminate|]. apply IH, M.
Qed.
Lemma blanks_blank n : blank (blanks n) = true.
Proof. induction n; [reflexivity|]. cbn. exact IHn. Qed.
Definition laid (depth : nat) (k : xml) : list xml := match k with XText _ => [k] | _ => [newline (S depth); indent (S depth) k] end.
Lemma indent_elem d x : is_elem (indent d x) = is_elem x.
Proof. destruct x; [reflexivity|]. cbn [indent]. destruct (existsb is_elem kids); reflexivity. Qed.
Lemma laid_filter d ks : forallb is_elem ks = true -> filter is_elem (flat_map (laid d) ks) = map (indent (S d)) ks.
Proof.
  induction ks as [|[s|sp l a k] ks IH]; intros H; [reflexivity|discriminate|].
  change (flat_map (laid d) (XElem sp l a k :: ks)) with (newline (S d) :: indent (S d) (XElem sp l a k) :: flat_map (laid d) ks). cbn [filter map].
  change (is_elem (newline (S d))) with false. cbv iota. rewrite indent_elem. change (is_elem (XElem sp l a k)) with true. cbv iota. rewrite IH by exact H. reflexivity.
Qed.
Lemma newline_blank d : blank_text (newline d) = true.
Proof. cbn. apply blanks_blank. Qed.
Lemma laid_blank d ks : forallb is_elem ks = true -> forallb blank_text (flat_map (laid d) ks) = true.
Proof.
  induction ks as [|[s|sp l a k] ks IH]; intros H; [reflexivity|discriminate|].
  change (flat_map (laid d) (XElem sp l a k :: ks)) with (newline (S d) :: indent (S d) (XElem sp l a k) :: flat_map (laid d) ks). cbn [forallb].
  rewrite newline_blank, (IH H). cbn [indent]. destruct (existsb is_elem k); reflexivity.
Qed.
Lemma indent_laid d sp l a ks : indent d (XElem sp l a ks) = if existsb is_elem ks then XElem sp l a (flat_map (laid d) ks ++ [newline d]) else XElem sp l a ks.
Proof. reflexivity. Qed.
Lemma seen_indent x : forall d, is_elem x = true -> neat x -> seen x (indent d x).
Proof.
  induction x as [s|sp l a ks IH] using xml_induction; intros d E N; [discriminate|]. destruct N as (M & N). rewrite indent_laid. destruct (existsb is_elem ks) eqn:X; [|constructor; exact X].
  specialize (M eq_refl). apply seen_node; [intros ->; discriminate| |].
  - rewrite filter_app, (laid_filter d ks M). change (filter is_elem [newline d]) with (@nil xml). rewrite app_nil_r.
    clear X. apply list_all_Forall in N. induction IH as [|k ks Hk _ IH]; constructor; cbn [forallb] in M; apply andb_prop in M as (M1 & M2); inversion N; subst; auto.
  - rewrite forallb_app, (laid_blank d ks M). cbn [forallb andb]. rewrite newline_blank. reflexivity.
Qed.
Lemma tall_resolve x : forall ns, tall (resolve ns x) = tall x.
Proof.
  induction x as [s|sp l a ks IH] using xml_induction; intros ns; [reflexivity|]. cbn [resolve tall]. f_equal. set (ns' := match assoc "xmlns" a with Some n => n | None => ns end). clearbody ns'.
  induction IH as [|k ks Hk _ IH]; [reflexivity|]. cbn [map fold_right]. rewrite Hk, IH. reflexivity.
Qed.
Lemma tall_max_app a b : fold_right N.max 0%N (map tall (a ++ b)) = N.max (fold_right N.max 0%N (map tall a)) (fold_right N.max 0%N (map tall b)).
Proof. induction a as [|x a IH]; [cbn; destruct (fold_right N.max 0%N (map tall b)); reflexivity|]. cbn [app map fold_right]. rewrite IH, N.max_assoc. reflexivity. Qed.
Lemma tall_indent x : forall d, tall (indent d x) = tall x.
Proof.
  induction x as [s|sp l a ks IH] using xml_induction; intros d; [reflexivity|]. rewrite indent_laid. destruct (existsb is_elem ks); [|reflexivity]. cbn [tall]. f_equal.
  rewrite tall_max_app. cbn [map fold_right tall newline]. rewrite !N.max_0_r.
  induction IH as [|k ks Hk _ IH]; [reflexivity|]. cbn [flat_map]. rewrite tall_max_app, IH. destruct k as [s|sp' l' a' k']; [reflexivity|].
  unfold laid. cbn [map fold_right]. rewrite Hk. cbn [newline tall]. lia.
Qed.

(** ** The round trip *)
Definition bom_values (b : BOM) : list val := fields_of_val (reify_BOM b).
Lemma bom_shape b : reify_BOM b = VStruct (bom_values b).
Proof. destruct b. reflexivity. Qed.
Theorem bom_reads {Lim : Limit} b els : bom_sane b -> bom_to_xml b = Ok els ->
  exists e, els = [e] /\ named "bom" e /\ is_elem e = true /\ neat e /\
  forall e' entries, seen e e' -> (2 * tall e' <= limit)%N ->
    exists sp a ks, e' = XElem sp "bom" a ks /\
    bom_within entries e' zero_BOM =
    Ok (set_BOM_XMLName (mkXMLName sp "bom")
         (let b' := reflect_BOM (VStruct (back_fields fields_BOM (map back_of (bom_values b)))) in
          set_BOM_SpecVersion (match_namespace entries (BOM_XMLNS b') 0%Z) b')).
Proof.
  intros S E. rewrite <- (version_unseen b 1%Z) in E. pose proof (back_unseen b 1%Z) as Bu. set (c := set_BOM_SpecVersion 1%Z b) in *. unfold bom_sane in S. fold c in S.
  assert (Bv : back_fields fields_BOM (map back_of (bom_values b)) = back_fields fields_BOM (map back_of (bom_values c))) by reflexivity. rewrite Bv. clear Bu Bv. clearbody c. clear b.
  pose proof (typed_BOM c) as W. unfold bom_to_xml in E. pose proof (bom_shape c) as Sh. rewrite Sh in *.
  pose proof (all_tidy (VStruct (bom_values c))) as Td. pose proof (tidy_enc _ _ _ _ _ Td E) as Nt.
  assert (V : values_ok fields_BOM (bom_values c)).
  { apply (values_struct (TRef "BOM")); auto.
    apply everywhere_below, all_one. }
  assert (E' : enc_struct fields_BOM (map annotate (bom_values c)) "BOM" = Ok els) by exact E.
  destruct (self_struct fields_BOM (bom_values c) "BOM" els fields_BOM_facts V E') as (e & -> & N & R).
  change (match xml_name fields_BOM with Some n => n | None => "BOM" end) with "bom" in *. apply Forall_inv in Nt as (El & Ne).
  exists e. do 4 (split; [first [reflexivity|assumption]|]). intros e' entries Se T.
  destruct (R e' 0%N Se) as (sp & a & ks & -> & D); [lia|]. exists sp, a, ks. split; [reflexivity|].
  unfold bom_within. assert (X : xdec (XElem sp "bom" a ks) (TRef "BOM") 0%N (reify_BOM zero_BOM) = Ok (VStruct (set_name fields_BOM sp "bom" (back_fields fields_BOM (map back_of (bom_values c)))))).
  { unfold xdec. cbn [waiting]. unfold dec_elem. change (limit <=? 0)%N with false. change (kind_of (TRef "BOM")) with (KStruct fields_BOM). cbv iota.
    unfold dec_slice. change (unmarshaler (TRef "BOM")) with MNone. change (kind_of (TRef "BOM")) with (KStruct fields_BOM). cbv iota.
    unfold dec_value. change (unmarshaler (TRef "BOM")) with MNone. change (kind_of (TRef "BOM")) with (KStruct fields_BOM). cbv iota.
    change (fields_of_val (reify_BOM zero_BOM)) with (XmlModel.zeros fields_BOM). rewrite D. reflexivity. }
  rewrite X. cbn [bind]. clear. destruct c. reflexivity.
Qed.
