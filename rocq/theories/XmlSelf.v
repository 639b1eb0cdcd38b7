(** A struct written and read with the same fields; simple values. *)
From Verif Require Import Base Types Univ TypeTable Wt ReifyBase Consts Numbers NumbersProofs JsonModel JsonProofs JsonHooks XmlModel XmlBack XmlTable XmlSpec XmlValues XmlProofs XmlPairs XmlStructs.
From Coq Require Import Lia.
Local Open Scope string_scope.
Section Limits.
Context {Lim : Limit}.

Lemma kids_fit sp l a ks D : (D + 2 * tall (XElem sp l a ks) <= limit + 1)%N -> forall k, In k ks -> (N.succ D + 2 * tall k <= limit)%N.
Proof. intros H k K. pose proof (tall_kid sp l a ks k K). lia. Qed.

(** Any pairing, as an element. *)
Lemma pair_struct ds es m vs name els : pair_facts ds es m = true -> values_ok es vs -> enc_struct es (map annotate vs) name = Ok els ->
  name_fits ds (match xml_name es with Some n => n | None => name end) = true ->
  exists ks, enc_fields es (map annotate vs) = Ok ks /\
    els = [elem (match xml_name es with Some n => n | None => name end) (enc_attrs es (map annotate vs)) ks] /\
  forall e' D, seen (elem (match xml_name es with Some n => n | None => name end) (enc_attrs es (map annotate vs)) ks) e' ->
    (D + 2 * tall e' <= limit + 1)%N ->
    exists sp' ks', e' = XElem sp' (match xml_name es with Some n => n | None => name end) (enc_attrs es (map annotate vs)) ks' /\
      (existsb is_elem ks = false -> ks' = ks) /\ (existsb is_elem ks = true -> forallb blank_text ks' = true) /\
      dec_struct ds sp' (match xml_name es with Some n => n | None => name end) (enc_attrs es (map annotate vs)) (map waiting ks') D (XmlModel.zeros ds) =
      Ok (set_chardata ds (chardata (map waiting ks')) (spread moved m es (map back_of vs)
            (set_name ds sp' (match xml_name es with Some n => n | None => name end) (XmlModel.zeros ds)))).
Proof.
  intros F V E Nm. unfold enc_struct in E. apply bind_ok in E as (ks & E & H). injection H as <-. exists ks. split; [exact E|]. split; [reflexivity|].
  intros e' D S T. apply seen_inv in S as (sp' & ks' & -> & S & S1 & S2). exists sp', ks'. repeat split; auto.
  apply (pair_ok ds es m vs ks ks'); auto. eapply kids_fit, T.
Qed.

(** ** The same fields *)
Lemma nth_chardata fs s : forall cur i f c, nth_error fs i = Some f -> nth_error cur i = Some c ->
  nth_error (set_chardata fs s cur) i = Some (if is_chardata f then VStr s else c).
Proof.
  induction fs as [|f0 fs IH]; intros [|c0 cur] [|i] f c F C; try discriminate; cbn [set_chardata nth_error] in *.
  - injection F as <-. injection C as <-. unfold is_chardata. destruct (xml_info f0) as [[[] ? ? ?]|]; reflexivity.
  - apply IH; assumption.
Qed.
Lemma nth_name fs sp l : forall cur i f c, nth_error fs i = Some f -> nth_error cur i = Some c ->
  nth_error (set_name fs sp l cur) i = Some (if String.eqb (f_name f) "XMLName" then VStruct [VStr sp; VStr l] else c).
Proof.
  induction fs as [|f0 fs IH]; intros [|c0 cur] [|i] f c F C; try discriminate; cbn [set_name nth_error] in *.
  - injection F as <-. injection C as <-. reflexivity.
  - apply IH; assumption.
Qed.
Lemma nth_back fs : forall ns i f n, nth_error fs i = Some f -> nth_error ns i = Some n -> nth_error (back_fields fs ns) i = Some (back_field f n).
Proof.
  induction fs as [|f0 fs IH]; intros [|n0 ns] [|i] f n F N; try discriminate; cbn [back_fields nth_error] in *.
  - injection F as <-. injection N as <-. reflexivity.
  - apply IH; assumption.
Qed.
Lemma back_length fs : forall ns, length ns = length fs -> length (back_fields fs ns) = length fs.
Proof. induction fs as [|f fs IH]; intros [|n ns] L; try discriminate; cbn; auto. Qed.
Lemma set_chardata_length fs s : forall cur, length (set_chardata fs s cur) = length cur.
Proof. induction fs as [|f fs IH]; intros [|c cur]; cbn; auto. Qed.
Lemma nth_zeros fs : forall i f, nth_error fs i = Some f -> nth_error (XmlModel.zeros fs) i = Some (zero_of (f_ty f)).
Proof. intros i f F. unfold XmlModel.zeros. rewrite nth_error_map, F. reflexivity. Qed.
Lemma nth_seq n : forall k i, (i < n)%nat -> nth_error (seq k n) i = Some (k + i)%nat.
Proof.
  induction n as [|n IH]; intros k i L; [lia|]. destruct i as [|i]; cbn [seq nth_error]; [f_equal; lia|]. rewrite IH by lia. f_equal. lia.
Qed.
Lemma nth_seq_inv n k i x : nth_error (seq k n) i = Some x -> x = (k + i)%nat.
Proof. intros H. assert (i < n)%nat by (rewrite <- (seq_length n k); apply nth_error_Some; congruence). rewrite nth_seq in H by assumption. congruence. Qed.

Lemma text_only fs : forall i vs ks v, existsb is_element fs = false -> only_at is_chardata i fs = true -> length vs = length fs ->
  enc_fields fs (map annotate vs) = Ok ks -> nth_error vs i = Some v -> ks = text (str_of v).
Proof.
  assert (None_ : forall fs vs ks, existsb is_element fs = false -> existsb is_chardata fs = false -> enc_fields fs (map annotate vs) = Ok ks -> ks = []).
  { clear. induction fs as [|f fs IH]; intros [|v vs] ks N C E; try (injection E as <-; reflexivity).
    cbn [existsb] in N, C. apply Bool.orb_false_iff in N as (N & Ns), C as (C & Cs). cbn [enc_fields map] in E.
    apply bind_ok in E as (a & A & E). apply bind_ok in E as (b & B & E). injection E as <-. rewrite (IH vs b Ns Cs B).
    unfold enc_field in A. unfold is_element in N. unfold is_chardata in C. destruct (xml_info f) as [[[] ? ? ?]|]; try discriminate; injection A as <-; reflexivity. }
  induction fs as [|f fs IH]; intros i [|v0 vs] ks v N O L E V; try discriminate; [destruct i; discriminate|].
  cbn [existsb] in N. apply Bool.orb_false_iff in N as (N & Ns). cbn [enc_fields map] in E.
  apply bind_ok in E as (a & A & E). apply bind_ok in E as (b & B & E). injection E as <-. destruct i as [|i]; cbn in O, V; apply andb_prop in O as (O & Os).
  - injection V as ->. apply negb_true_iff in Os. rewrite (None_ fs vs b Ns Os B), app_nil_r. unfold enc_field in A. unfold is_chardata in O.
    destruct (xml_info f) as [[[] ? ? ?]|]; try discriminate. unfold nstr in A. rewrite nval_annotate in A. injection A as <-. reflexivity.
  - apply negb_true_iff in O. injection L as L. rewrite <- (IH i vs b v Ns Os L B V). unfold enc_field in A. unfold is_element in N. unfold is_chardata in O.
    destruct (xml_info f) as [[[] ? ? ?]|]; try discriminate; injection A as <-; reflexivity.
Qed.
Lemma text_elems s : existsb is_elem (text s) = false.
Proof. unfold text. destruct (String.eqb s ""); reflexivity. Qed.
Lemma text_chardata s : chardata (map waiting (text s)) = xml_clean s.
Proof. unfold text. destruct (String.eqb_spec s ""); [subst; reflexivity|]. cbn. apply append_nil_r. Qed.

Lemma self_struct fs vs name els : xml_facts fs = true -> values_ok fs vs -> enc_struct fs (map annotate vs) name = Ok els ->
  exists e, els = [e] /\ named (match xml_name fs with Some n => n | None => name end) e /\
  forall e' D, seen e e' -> (D + 2 * tall e' <= limit + 1)%N ->
    exists sp' a ks', e' = XElem sp' (match xml_name fs with Some n => n | None => name end) a ks' /\
      dec_struct fs sp' (match xml_name fs with Some n => n | None => name end) a (map waiting ks') D (XmlModel.zeros fs) =
      Ok (set_name fs sp' (match xml_name fs with Some n => n | None => name end) (back_fields fs (map back_of vs))).
Proof.
  intros F V E. unfold xml_facts in F. apply andb_prop in F as (F & C).
  destruct (pair_struct fs fs _ vs name els F V E) as (ks & Ek & -> & R).
  { unfold name_fits. destruct (xml_name fs); [apply String.eqb_refl|reflexivity]. }
  eexists. split; [reflexivity|]. split; [reflexivity|]. intros e' D S T. destruct (R e' D S T) as (sp' & ks' & -> & S1 & S2 & Dk). clear R.
  exists sp', (enc_attrs fs (map annotate vs)), ks'. split; [reflexivity|]. rewrite Dk. f_equal. clear Dk.
  set (l := match xml_name fs with Some n => n | None => name end). pose proof (values_length _ _ V) as Lv.
  assert (Lz : length (set_name fs sp' l (XmlModel.zeros fs)) = length fs) by (rewrite set_name_length; unfold XmlModel.zeros; apply map_length).
  apply nth_ext_error.
  { rewrite set_chardata_length, spread_length, Lz, set_name_length, back_length; [reflexivity|]. rewrite map_length. exact Lv. }
  intros i x X. assert (Li : (i < length fs)%nat).
  { assert (H : nth_error (set_chardata fs (chardata (map waiting ks')) (spread moved (seq 0 (length fs)) fs (map back_of vs) (set_name fs sp' l (XmlModel.zeros fs)))) i <> None) by congruence.
    apply nth_error_Some in H. rewrite set_chardata_length, spread_length, Lz in H. exact H. }
  destruct (nth_error fs i) as [f|] eqn:Fi; [|apply nth_error_None in Fi; lia].
  destruct (nth_error vs i) as [v|] eqn:Vi; [|apply nth_error_None in Vi; lia].
  assert (Bi : nth_error (back_fields fs (map back_of vs)) i = Some (back_field f (back_of v))) by (apply nth_back; [exact Fi|]; rewrite nth_error_map, Vi; reflexivity).
  rewrite (nth_name fs sp' l _ i f _ Fi Bi).
  assert (Zi := nth_name fs sp' l _ i f _ Fi (nth_zeros fs i f Fi)).
  destruct (moved f) eqn:Mv.
  - assert (Own : owner moved (seq 0 (length fs)) fs vs i f v) by (exists i; rewrite nth_seq by exact Li; auto).
    pose proof (spread_own fs moved i _ fs vs (set_name fs sp' l (XmlModel.zeros fs)) f v F) as Sp. rewrite Lz in Sp. specialize (Sp Li Own).
    rewrite (nth_chardata fs _ _ i f _ Fi Sp) in X. injection X as <-.
    assert (Xf : xml_info f <> None) by (unfold moved in Mv; destruct (xml_info f); [discriminate|discriminate Mv]).
    rewrite (info_name f Xf). unfold moved in Mv. unfold is_chardata. destruct (xml_info f) as [[[] ? ? ?]|]; try discriminate Mv; reflexivity.
  - assert (Nw : ownerless moved (seq 0 (length fs)) fs i).
    { intros j g H1 H2. apply nth_seq_inv in H1. cbn in H1. subst j. congruence. }
    pose proof (spread_none moved i _ fs vs (set_name fs sp' l (XmlModel.zeros fs)) Nw) as Sp. rewrite Zi in Sp.
    rewrite (nth_chardata fs _ _ i f _ Fi Sp) in X. injection X as <-. unfold moved in Mv. unfold back_field, is_chardata.
    destruct (xml_info f) as [[[] ps n o]|] eqn:Xf; try discriminate Mv; [|reflexivity].
    rewrite (info_name f) by congruence. do 2 f_equal. unfold chardata_facts in C.
    assert (Ec : existsb is_chardata fs = true).
    { apply existsb_exists. exists f. split; [eapply nth_error_In, Fi|]. unfold is_chardata. rewrite Xf. reflexivity. }
    rewrite Ec in C. cbn [negb orb] in C. apply andb_prop in C as (C & _). apply andb_prop in C as (Ne & Oa). apply negb_true_iff in Ne.
    apply existsb_exists in Oa as (k & _ & Oa). assert (Ik : i = k).
    { destruct (Nat.eq_dec i k) as [|Nk]; [assumption|]. pose proof (only_at_other _ _ _ _ _ Oa Fi Nk) as H. unfold is_chardata in H. rewrite Xf in H. discriminate. }
    subst k. rewrite bval_back. pose proof (text_only fs i vs ks v Ne Oa Lv Ek Vi) as ->.
    rewrite (S1 (text_elems _)). symmetry; apply text_chardata.
Qed.

(** ** Types without methods *)
Lemma set_name_id fs sp l : existsb (fun f => String.eqb (f_name f) "XMLName") fs = false -> forall cur, set_name fs sp l cur = cur.
Proof.
  induction fs as [|f fs IH]; intros H [|c cur]; try reflexivity. cbn [existsb] in H. apply Bool.orb_false_iff in H as (H & Hs).
  cbn [set_name]. rewrite H, (IH Hs). reflexivity.
Qed.
Lemma struct_table t fs : kind_of t = KStruct fs -> is_bom t = false ->
  xml_name fs = None /\ existsb (fun f => String.eqb (f_name f) "XMLName") fs = false /\ zero_of t = VStruct (XmlModel.zeros fs) /\
  (is_data t = false -> xml_facts fs = true).
Proof.
  intros K B. pose proof (zero_struct t fs K) as Z. apply kind_struct_in in K as (n & -> & I).
  pose proof defs_names as N. rewrite forallb_forall in N. specialize (N _ I). cbn [fst snd] in N. unfold is_bom in B. rewrite B in N. cbn [orb] in N.
  destruct (xml_name fs); [discriminate|]. apply negb_true_iff in N. repeat split; auto.
  intros D. pose proof defs_xml as X. rewrite forallb_forall in X. specialize (X _ I). cbn [fst snd] in X. unfold is_data in D. cbn [core] in D.
  rewrite D in X. exact X.
Qed.
Lemma pair_field ds es : forall m, pair_facts ds es m = true -> forallb (fun f => field_ty (f_ty f)) es = true.
Proof.
  induction es as [|f es IH]; intros [|i m] H; try discriminate; [reflexivity|]. cbn [pair_facts] in H. apply andb_prop in H as (H & Hs).
  apply andb_prop in H as (H & _). unfold pair_fact in H. apply andb_prop in H as (H & _). cbn [forallb]. rewrite H. eapply IH, Hs.
Qed.
Lemma many_fields fs : forallb (fun f => field_ty (f_ty f)) fs = true -> forall vs, length vs = length fs -> list_all (everywhere one_ok) vs ->
  zip_all (fun f v => many_at (f_ty f) v) vs fs.
Proof.
  induction fs as [|f fs IH]; intros H [|v vs] L E; try discriminate; [exact I|]. cbn [forallb] in H. apply andb_prop in H as (H & Hs). destruct E as (E & Es).
  split; [apply many; assumption|apply IH; auto].
Qed.
Lemma zip_length {A B} (P : A -> B -> Prop) : forall (vs : list B) (fs : list A), zip_all P vs fs -> length vs = length fs.
Proof. induction vs as [|v vs IH]; intros [|f fs] H; try contradiction; [reflexivity|]. destruct H. cbn. f_equal. auto. Qed.
Lemma values_struct t fs vs : kind_of t = KStruct fs -> forallb (fun f => field_ty (f_ty f)) fs = true ->
  wt t (VStruct vs) -> xsane t (VStruct vs) -> below one_ok (VStruct vs) -> values_ok fs vs.
Proof.
  intros K Ft W S B. cbn [wt] in W. rewrite K in W. cbn [xsane] in S. unfold fields_of in S. rewrite K in S. cbn [below] in B.
  split; [|split]; auto. apply many_fields; auto. eapply zip_length, W.
Qed.
Lemma struct_values t fs vs name els : kind_of t = KStruct fs -> is_bom t = false -> is_data t = false -> unmarshaler t = MNone ->
  values_ok fs vs -> enc_struct fs (map annotate vs) name = Ok els ->
  exists e, els = [e] /\ named (element_name t name) e /\
    forall e' D, seen e e' -> (D + 2 * tall e' <= limit + 1)%N -> vdec e' t D (zero_of t) = Ok (VStruct (back_fields fs (map back_of vs))).
Proof.
  intros K Bm Dt U V E. destruct (struct_table t fs K Bm) as (Xn & Nn & Z & F). specialize (F Dt).
  destruct (self_struct fs vs name els F V E) as (e & -> & N & R). rewrite Xn in N, R.
  exists e. split; [reflexivity|]. split; [unfold element_name; rewrite Dt; exact N|]. intros e' D Se T.
  destruct (R e' D Se T) as (sp' & a & ks' & -> & Dk). cbn [vdec]. unfold dec_value. rewrite U, K, Z. cbn [fields_of_val]. rewrite Dk. cbn [bind].
  rewrite (set_name_id fs sp' name Nn). reflexivity.
Qed.
Lemma struct_one t fs vs name els : kind_of t = KStruct fs -> is_bom t = false -> is_data t = false -> unmarshaler t = MNone ->
  wt t (VStruct vs) -> xsane t (VStruct vs) -> below one_ok (VStruct vs) -> enc_struct fs (map annotate vs) name = Ok els ->
  exists e, els = [e] /\ named (element_name t name) e /\
    forall e' D, seen e e' -> (D + 2 * tall e' <= limit + 1)%N -> vdec e' t D (zero_of t) = Ok (VStruct (back_fields fs (map back_of vs))).
Proof.
  intros K Bm Dt U W S B. destruct (struct_table t fs K Bm) as (_ & _ & _ & F). specialize (F Dt).
  unfold xml_facts in F. apply andb_prop in F as (F & _). apply struct_values; auto. apply (values_struct t); auto. eapply pair_field, F.
Qed.

Lemma seen_text name s e' : seen (text_elem name s) e' -> exists sp', e' = XElem sp' name [] (text s).
Proof.
  intros H. apply seen_inv in H as (sp' & ks' & -> & _ & S & _). rewrite (S (text_elems s)). eauto.
Qed.
Lemma simple_one t v name els : is_simple t = true -> is_data t = false -> marshaler t = MNone -> wt t v -> xsane t v ->
  els = [text_elem name (simple v)] ->
  exists e, els = [e] /\ named (element_name t name) e /\
    forall e' D, seen e e' -> (D + 2 * tall e' <= limit + 1)%N -> vdec e' t D (zero_of t) = Ok (cleaned v).
Proof.
  intros Is Dt M W S ->. eexists. split; [reflexivity|]. split; [unfold element_name; rewrite Dt; reflexivity|]. intros e' D Se _.
  apply seen_text in Se as (sp' & ->). cbn [vdec]. unfold dec_value. unfold unmarshaler. rewrite M.
  assert (Ks : forall fs, kind_of t <> KStruct fs) by (intros fs K; unfold is_simple in Is; rewrite K in Is; discriminate).
  destruct (kind_of t) eqn:K; try (exfalso; eapply Ks, eq_refl); rewrite text_chardata; apply copy_simple; auto; rewrite M; discriminate.
Qed.
End Limits.
