(** The types with methods, one by one. *)
From Verif Require Import Base Types Univ TypeTable Wt ReifyBase Consts LinkModel Version Numbers NumbersProofs JsonModel JsonProofs JsonHooks XmlModel XmlBack XmlTable XmlSpec XmlValues XmlProofs XmlPairs XmlStructs XmlSelf.
From Coq Require Import Lia.
Local Open Scope string_scope.
Section Limits.
Context {Lim : Limit}.

(** ** Values of simple types *)
Lemma one_simple t v : is_simple t = true -> is_data t = false -> marshaler t = MNone -> simple_val v = true -> one_at t v.
Proof.
  intros Is Dt M Sv omit name els W S E.
  assert (E' : els = [text_elem name (simple v)]).
  { destruct v; try discriminate Sv; cbn [annotate nenc encode] in E; rewrite M in E; injection E as <-; reflexivity. }
  assert (B : bback (back_of v) t omit = Some (cleaned v)) by (apply back_simple; auto; unfold plain_marshaler; rewrite M; reflexivity).
  rewrite B. eapply simple_one; eassumption.
Qed.
Lemma one_str s : one_at TStr (VStr s).
Proof. apply one_simple; reflexivity. Qed.
Lemma many_str s : many_at TStr (VStr s).
Proof. apply many_base; [reflexivity|apply one_str]. Qed.
Lemma back_str f s : xml_info f <> None -> f_ty f = TStr -> back_field f (back_of (VStr s)) = VStr (xml_clean s).
Proof.
  intros X T. unfold back_field. rewrite T. destruct (xml_info f) as [[m ps n o]|]; [|congruence].
  assert (C : default TStr (checked_back (back_of (VStr s)) TStr o) = VStr (xml_clean s)).
  { unfold checked_back. cbn [back_of bval]. destruct o; [|reflexivity]. cbn [andb empty_value]. destruct (String.eqb_spec s ""); [subst|]; reflexivity. }
  destruct m; [exact C|reflexivity|]. unfold element_name, is_data. cbn [core]. rewrite String.eqb_refl. exact C.
Qed.

(** ** The obligation of a struct type with methods *)
Lemma tall_hook D e' : (D + 2 * tall e' <= limit + 1)%N -> (0 + 2 * tall e' <= limit + 1)%N. Proof. lia. Qed.
Definition hook_at (t : ty) (m : method) (fs : list field) (vs : list val) : Prop := forall name els,
  zip_all (fun f x => wt (f_ty f) x) vs fs -> zip_all (fun f x => xsane (f_ty f) x) vs fs ->
  marshal m fs (VStruct vs) (map annotate vs) name = Ok els ->
  match back_method m fs (VStruct vs) (map back_of vs) with
  | None => els = []
  | Some b => exists e, els = [e] /\ named (element_name t name) e /\
      forall sp l a ks, seen e (XElem sp l a ks) -> (0 + 2 * tall (XElem sp l a ks) <= limit + 1)%N ->
        unmarshal m t sp l a (map waiting ks) (VStruct (XmlModel.zeros fs)) = Ok b
  end.
Lemma hook_struct t m fs vs : marshaler t = m -> m <> MNone -> m <> MLicense -> kind_of t = KStruct fs -> zero_of t = VStruct (XmlModel.zeros fs) ->
  hook_at t m fs vs -> one_at t (VStruct vs).
Proof.
  intros M N1 N2 K Z H omit name els W S E. cbn [wt] in W. rewrite K in W. cbn [xsane] in S. unfold fields_of in S. rewrite K in S.
  assert (Fo : fields_of t = fs) by (unfold fields_of; rewrite K; reflexivity).
  assert (E' : marshal m fs (VStruct vs) (map annotate vs) name = Ok els).
  { rewrite <- E. cbn [annotate nenc encode]. rewrite M, Fo. destruct m; try reflexivity. congruence. }
  assert (B : bback (back_of (VStruct vs)) t omit = back_method m fs (VStruct vs) (map back_of vs)).
  { cbn [back_of bback back_value]. rewrite M, Fo. destruct m; try reflexivity. congruence. }
  rewrite B. specialize (H name els W S E'). destruct (back_method m fs (VStruct vs) (map back_of vs)) as [b|]; [|exact H].
  destruct H as (e & -> & N & D). exists e. split; [reflexivity|]. split; [exact N|]. intros e' Dp Se T.
  pose proof (seen_elem _ _ Se) as (_ & El). destruct e' as [|sp l a ks]; [discriminate|]. cbn [vdec]. unfold dec_value, unmarshaler. rewrite M, Z.
  assert (G : unmarshal m t sp l a (map waiting ks) (VStruct (XmlModel.zeros fs)) = Ok b) by (apply D; [exact Se|lia]).
  destruct m; try exact G; congruence.
Qed.

End Limits.
Ltac sub_wt := match goal with
  | H : wt TStr ?v |- _ => apply wt_str in H as (? & ->)
  end.
Section Limits.
Context {Lim : Limit}.

(** ** MRef, MSpecVersion *)
Lemma one_ref v : one_at (TRef "BOMReference") v.
Proof.
  intros omit name els W S E. destruct (wt_strk (TRef "BOMReference") v eq_refl W) as (s & ->).
  injection E as <-. cbn [back_of bback back_value marshaler]. exists (ref_elem name s). split; [reflexivity|]. split; [reflexivity|].
  intros e' D Se _. apply seen_inv in Se as (sp & ks & -> & _ & Sk & _). rewrite (Sk eq_refl). reflexivity.
Qed.
Lemma parsed_visible s z : parse_spec_version s = Some z -> str_all visible s = true.
Proof.
  unfold parse_spec_version, str_eqb. repeat match goal with |- context [String.eqb s ?x] => destruct (String.eqb_spec s x) as [->|_]; [reflexivity|] end. discriminate.
Qed.
Lemma one_version v : one_at (TRef "SpecVersion") v.
Proof.
  intros omit name els W S E.
  assert (V : exists z, v = VInt z) by (destruct v as [| | | |[]|[]|]; try discriminate W; try contradiction W; eauto). destruct V as (z & ->).
  injection E as <-. cbn [back_of bback back_value marshaler]. exists (text_elem name (SpecVersion_String z)). split; [reflexivity|]. split; [reflexivity|].
  intros e' D Se _. apply seen_text in Se as (sp & ->). cbn [vdec]. unfold dec_value. cbn [unmarshaler marshaler assoc xml_methods String.eqb Ascii.eqb Bool.eqb].
  unfold unmarshal. rewrite text_chardata. cbn [xsane] in S. change (marshaler (TRef "SpecVersion")) with MSpecVersion in S. cbv iota in S.
  rewrite (clean_visible _ (parsed_visible _ _ S)), S. reflexivity.
Qed.

(** ** MCopyright *)
Lemma hook_copyright vs : hook_at (TRef "Copyright") MCopyright fields_Copyright vs.
Proof.
  intros name els W S E. destruct vs as [|v [|? ?]]; try contradiction; [|destruct W as (_ & [])]. destruct W as (W & _). apply wt_str in W as (s & ->).
  injection E as <-. cbn [map back_method]. exists (text_elem name s). split; [reflexivity|]. split; [reflexivity|].
  intros sp l a ks Se _. apply seen_text in Se as (sp' & Q). injection Q as -> -> -> ->. cbn [unmarshal]. rewrite text_chardata. reflexivity.
Qed.

(** ** Reading with other fields *)
End Limits.
Ltac strings_ok := split; [|split]; cbn [zip_all]; repeat apply conj; try exact I; try (apply many_str); try reflexivity.
Section Limits.
Context {Lim : Limit}.
(** An element written with the fields [es] and read afresh with the fields [ds]. *)
Lemma read_pair ds es m vs name els : pair_facts ds es m = true -> values_ok es vs -> enc_struct es (map annotate vs) name = Ok els ->
  xml_name ds = None -> xml_name es = None ->
  exists e ks, els = [e] /\ named name e /\ enc_fields es (map annotate vs) = Ok ks /\
  forall sp l a ks', seen e (XElem sp l a ks') -> (0 + 2 * tall (XElem sp l a ks') <= limit + 1)%N ->
    (existsb is_elem ks = false -> ks' = ks) /\ (existsb is_elem ks = true -> forallb blank_text ks' = true) /\
    decode_raw ds sp l a (map waiting ks') =
    Ok (set_chardata ds (chardata (map waiting ks')) (spread moved m es (map back_of vs) (set_name ds sp l (XmlModel.zeros ds)))).
Proof.
  intros F V E Xd Xe. destruct (pair_struct ds es m vs name els F V E) as (ks & Ek & -> & R); [unfold name_fits; rewrite Xd; reflexivity|].
  rewrite Xe in R. eexists. exists ks. split; [reflexivity|]. rewrite Xe. split; [reflexivity|]. split; [exact Ek|].
  intros sp l a ks' Se T. destruct (R _ 0%N Se T) as (sp' & ks'' & Q & S1 & S2 & Dk). injection Q as -> -> -> ->. split; [exact S1|]. split; [exact S2|]. exact Dk.
Qed.
(** Evaluates the result of [read_pair] up to [back_field]. *)
End Limits.
Ltac eval_read Q :=
  match type of Q with
  | _ = Ok ?r =>
      match r with context [chardata ?k] => let c := fresh "cd" in let H := fresh "Ecd" in remember (chardata k) as c eqn:H end;
      match type of Q with _ = Ok ?r' =>
        let x := eval lazy -[back_field back_of xml_clean] in r' in change r' with x in Q
      end
  end;
  rewrite ?back_str in Q by (reflexivity || (vm_compute; discriminate)).
Section Limits.
Context {Lim : Limit}.

Lemma bptr_struct t fs vs : marshaler t = MNone -> kind_of t = KStruct fs ->
  bptr (back_of (VPtr (Some (VStruct vs)))) t = some_ptr (VStruct (back_fields fs (map back_of vs))).
Proof.
  intros M K. unfold bptr. cbn [back_of bback back_value option_map]. change (elem_ty (TPtr t)) with t. rewrite M. cbn [option_map default].
  unfold fields_of. rewrite K. reflexivity.
Qed.
End Limits.
Ltac eval_back :=
  match goal with |- context [back_fields ?fs ?ns] => let x := eval lazy -[back_field back_of] in (back_fields fs ns) in change (back_fields fs ns) with x end;
  rewrite ?back_str by (reflexivity || (vm_compute; discriminate)).
Section Limits.
Context {Lim : Limit}.

(** ** MState, MExtension *)
Definition state_fields : list field :=
  [xfield "State" TStr "state"; xfield "Name" TStr "name"; xfield "Description" TStr "description"; xfield "Reason" TStr "reason"].
Lemma hook_state vs : hook_at (TRef "CertificateState") MState fields_CertificateState vs.
Proof.
  intros name els W S E. destruct vs as [|p [|c [|? ?]]]; try contradiction; try (destruct W as (_ & []); fail); [|destruct W as (_ & _ & [])].
  destruct W as (Wp & Wc & _). apply wt_ptr in Wp as [->|(x & -> & Wp)]; apply wt_ptr in Wc as [->|(y & -> & Wc)].
  - cbn in E. injection E as <-. reflexivity.
  - destruct (wt_struct (TRef "CustomCertificateState") _ _ eq_refl Wc) as (vs & -> & Wz).
    destruct vs as [|n [|d [|r [|? ?]]]]; try contradiction; try (destruct Wz as (_ & []); fail); try (destruct Wz as (_ & _ & []); fail); [|destruct Wz as (_ & _ & _ & [])].
    destruct Wz as (W1 & W2 & W3 & _). apply wt_str in W1 as (n' & ->), W2 as (d' & ->), W3 as (r' & ->).
    destruct (read_pair state_fields fields_customCertificateStateXML [1; 2; 3]%nat [VStr n'; VStr d'; VStr r'] name els) as (e & ks & -> & N & _ & R);
      try reflexivity; [strings_ok|exact E|].
    cbn [map back_method bset back_of bval nonnil]. exists e. split; [reflexivity|]. split; [exact N|]. intros sp l a ks' Se T.
    destruct (R sp l a ks' Se T) as (_ & _ & Q). eval_read Q. change (BNode _ _ _) with (back_of (VPtr (Some (VStruct [VStr n'; VStr d'; VStr r'])))).
    rewrite (bptr_struct (TRef "CustomCertificateState") fields_CustomCertificateState) by reflexivity. eval_back.
    change (VStruct (XmlModel.zeros fields_CertificateState)) with (VStruct [VPtr None; VPtr None]). cbn [unmarshal]. unfold state_fields in Q. rewrite Q. reflexivity.
  - destruct (wt_struct (TRef "PredefinedCertificateState") _ _ eq_refl Wp) as (vs & -> & Wz).
    destruct vs as [|n [|r [|? ?]]]; try contradiction; try (destruct Wz as (_ & []); fail); [|destruct Wz as (_ & _ & [])].
    destruct Wz as (W1 & W3 & _). apply wt_str in W1 as (n' & ->), W3 as (r' & ->).
    destruct (read_pair state_fields fields_predefinedCertificateStateXML [0; 3]%nat [VStr n'; VStr r'] name els) as (e & ks & -> & N & _ & R);
      try reflexivity; [strings_ok|exact E|].
    cbn [map back_method bset back_of bval nonnil bpointee bsubs bfilled bclean bstr nonempty str_of]. exists e. split; [reflexivity|]. split; [exact N|]. intros sp l a ks' Se T.
    destruct (R sp l a ks' Se T) as (_ & _ & Q). eval_read Q.
    change (VStruct (XmlModel.zeros fields_CertificateState)) with (VStruct [VPtr None; VPtr None]). cbn [unmarshal]. unfold state_fields in Q. rewrite Q. cbn [bind].
    unfold bfilled, nonempty. cbn [bval str_of]. rewrite clean_eqb. destruct (String.eqb n' ""); reflexivity.
  - discriminate E.
Qed.
Definition extension_fields : list field :=
  [xfield "CommonExtensionName" TStr "commonExtensionName"; xfield "CommonExtensionValue" TStr "commonExtensionValue";
   xfield "CustomExtensionName" TStr "customExtensionName"; xfield "CustomExtensionValue" TStr "customExtensionValue"].
Lemma hook_extension vs : hook_at (TRef "CertificateExtension") MExtension fields_CertificateExtension vs.
Proof.
  intros name els W S E. destruct vs as [|p [|c [|? ?]]]; try contradiction; try (destruct W as (_ & []); fail); [|destruct W as (_ & _ & [])].
  destruct W as (Wp & Wc & _). apply wt_ptr in Wp as [->|(x & -> & Wp)]; apply wt_ptr in Wc as [->|(y & -> & Wc)].
  - cbn in E. injection E as <-. reflexivity.
  - destruct (wt_struct (TRef "CustomCertificateExtension") _ _ eq_refl Wc) as (vs & -> & Wz).
    destruct vs as [|n [|r [|? ?]]]; try contradiction; try (destruct Wz as (_ & []); fail); [|destruct Wz as (_ & _ & [])].
    destruct Wz as (W1 & W3 & _). apply wt_str in W1 as (n' & ->), W3 as (r' & ->).
    destruct (read_pair extension_fields fields_customCertificateExtensionXML [2; 3]%nat [VStr n'; VStr r'] name els) as (e & ks & -> & N & _ & R);
      try reflexivity; [strings_ok|exact E|].
    cbn [map back_method bset back_of bval nonnil]. exists e. split; [reflexivity|]. split; [exact N|]. intros sp l a ks' Se T.
    destruct (R sp l a ks' Se T) as (_ & _ & Q). eval_read Q. change (BNode _ _ _) with (back_of (VPtr (Some (VStruct [VStr n'; VStr r'])))).
    rewrite (bptr_struct (TRef "CustomCertificateExtension") fields_CustomCertificateExtension) by reflexivity. eval_back.
    change (VStruct (XmlModel.zeros fields_CertificateExtension)) with (VStruct [VPtr None; VPtr None]). cbn [unmarshal]. unfold extension_fields in Q. rewrite Q. reflexivity.
  - destruct (wt_struct (TRef "CommonCertificateExtension") _ _ eq_refl Wp) as (vs & -> & Wz).
    destruct vs as [|n [|r [|? ?]]]; try contradiction; try (destruct Wz as (_ & []); fail); [|destruct Wz as (_ & _ & [])].
    destruct Wz as (W1 & W3 & _). apply wt_str in W1 as (n' & ->), W3 as (r' & ->).
    destruct (read_pair extension_fields fields_commonCertificateExtensionXML [0; 1]%nat [VStr n'; VStr r'] name els) as (e & ks & -> & N & _ & R);
      try reflexivity; [strings_ok|exact E|].
    cbn [map back_method bset back_of bval nonnil bpointee bsubs bfilled bclean bstr nonempty str_of]. exists e. split; [reflexivity|]. split; [exact N|]. intros sp l a ks' Se T.
    destruct (R sp l a ks' Se T) as (_ & _ & Q). eval_read Q.
    change (VStruct (XmlModel.zeros fields_CertificateExtension)) with (VStruct [VPtr None; VPtr None]). cbn [unmarshal]. unfold extension_fields in Q. rewrite Q. cbn [bind].
    unfold bfilled, nonempty. cbn [bval str_of]. rewrite clean_eqb. destruct (String.eqb n' ""); reflexivity.
  - discriminate E.
Qed.

End Limits.
Ltac unzip W :=
  repeat match type of W with
  | zip_all _ ?l (_ :: _) => destruct l as [|? l]; [contradiction|]; let H := fresh "Wf" in destruct W as (H & W)
  | zip_all _ ?l [] => destruct l; [clear W|destruct W]
  end.
Section Limits.
Context {Lim : Limit}.
Lemma below_part vs v : below one_ok (VStruct vs) -> In v vs -> everywhere one_ok v.
Proof. intros B I. cbn [below] in B. apply list_all_Forall in B. rewrite Forall_forall in B. apply B, I. Qed.
Lemma everywhere_ptr x : everywhere one_ok (VPtr (Some x)) -> everywhere one_ok x.
Proof. intros (_ & H). exact H. Qed.

(** ** MDataset *)
Definition dataset_fields : list field := xfield "Ref" TStr "ref" :: fields_ComponentData.
Lemma hook_dataset vs : below one_ok (VStruct vs) -> hook_at (TRef "MLDatasetChoice") MDataset fields_MLDatasetChoice vs.
Proof.
  intros B name els W S E. unfold fields_MLDatasetChoice in W. destruct vs as [|ref [|data [|? ?]]]; try contradiction; try (destruct W as (_ & []); fail); [|destruct W as (_ & _ & [])].
  destruct W as (Wr & Wd & _). destruct S as (_ & Sd & _). cbn [f_ty] in *. apply wt_str in Wr as (r & ->).
  change (VStruct (XmlModel.zeros fields_MLDatasetChoice)) with (VStruct [VStr ""; VPtr None]).
  cbn [map back_method]. unfold bfilled, bset, nonempty. rewrite !bval_back. cbn [str_of].
  cbn [map marshal] in E. unfold filled, set, nonempty in E. rewrite !nval_annotate in E. cbn [str_of] in E.
  destruct (String.eqb r "") eqn:R; cbn [negb] in *.
  - apply wt_ptr in Wd as [->|(x & -> & Wd)]; [injection E as <-; reflexivity|]. cbn [nonnil] in *.
    destruct (wt_struct (TRef "ComponentData") _ _ eq_refl Wd) as (ds & -> & Wz).
    assert (V : values_ok fields_ComponentData ds).
    { apply (values_struct (TRef "ComponentData")); try reflexivity; try exact Wd; try exact Sd.
      apply everywhere_below, everywhere_ptr, (below_part _ _ B). right. left. reflexivity. }
    rewrite (bptr_struct (TRef "ComponentData") fields_ComponentData) by reflexivity. cbn [deref some_ptr zero_value].
    destruct (read_pair dataset_fields fields_ComponentData [1; 2; 3; 4; 5; 6; 7; 8; 9]%nat ds name els) as (e & ks & -> & N & _ & Q);
      try reflexivity; [exact V|exact E|].
    exists e. split; [reflexivity|]. split; [exact N|]. intros sp l a ks' Se T. destruct (Q sp l a ks' Se T) as (_ & _ & Q'). clear Q.
    unfold fields_ComponentData in Wz. unzip Wz. eval_read Q'. eval_back. cbn [unmarshal]. unfold dataset_fields, fields_ComponentData in *. rewrite Q'. cbn [bind].
    unfold nonempty. cbn [str_of String.eqb negb]. unfold drop_if. match goal with |- context [forallb zero_value ?l] => destruct (forallb zero_value l) end; reflexivity.
  - destruct (read_pair dataset_fields fields_mlDatasetChoiceRefXML [0]%nat [VStr r] name els) as (e & ks & -> & N & _ & Q); try reflexivity; [strings_ok|exact E|].
    exists e. split; [reflexivity|]. split; [exact N|]. intros sp l a ks' Se T. destruct (Q sp l a ks' Se T) as (_ & _ & Q'). clear Q.
    eval_read Q'. cbn [unmarshal]. unfold dataset_fields in Q'. rewrite Q'. cbn [bind]. unfold nonempty. cbn [str_of]. rewrite clean_eqb, R. reflexivity.
Qed.

(** ** MAsserter *)
Lemma one_field f n x name : xml_info f = Some (mkX XElement [] n false) ->
  enc_struct [f] [annotate (VPtr (Some x))] name = bind (nenc (annotate (VPtr (Some x))) (f_ty f) false n) (fun ks => Ok [elem (match xml_name [f] with Some m => m | None => name end) [] ks]).
Proof.
  intros X. unfold enc_struct. cbn [enc_fields enc_attrs]. unfold enc_field, enc_attr. rewrite X. cbn [nval annotate].
  unfold enc_checked. cbn [andb wrap fold_right]. destruct (nenc _ _ _ _) as [ks|]; [|reflexivity]. cbn [bind]. rewrite ?app_nil_r. reflexivity.
Qed.
Lemma values_one f v : wt (f_ty f) v -> xsane (f_ty f) v -> many_at (f_ty f) v -> values_ok [f] [v].
Proof. intros W S M. split; [|split]; cbn [zip_all]; auto. Qed.
Definition asserter_fields : list field :=
  [xfield "Organization" (TPtr (TRef "OrganizationalEntity")) "organization";
   xfield "Individual" (TPtr (TRef "OrganizationalContact")) "contact";
   xfield "BOMRef" (TPtr (TRef "BOMReference")) "ref"].
Lemma hook_asserter vs : below one_ok (VStruct vs) -> hook_at (TRef "AsserterChoice") MAsserter fields_AsserterChoice vs.
Proof.
  intros B name els W S E. unfold fields_AsserterChoice in W.
  destruct vs as [|org [|ind [|ref [|? ?]]]]; try contradiction; try (destruct W as (_ & []); fail); try (destruct W as (_ & _ & []); fail); [|destruct W as (_ & _ & _ & [])].
  destruct W as (Wo & Wi & Wr & _). destruct S as (So & Si & Sr & _). cbn [f_ty] in *.
  assert (Eo : everywhere one_ok org) by (apply (below_part _ _ B); left; reflexivity).
  assert (Ei : everywhere one_ok ind) by (apply (below_part _ _ B); right; left; reflexivity).
  assert (Er : everywhere one_ok ref) by (apply (below_part _ _ B); right; right; left; reflexivity). clear B.
  cbn [map back_method]. unfold bset. rewrite !bval_back.
  cbn [map marshal] in E. unfold set in E. rewrite !nval_annotate in E.
  assert (G : forall i f v n, nth_error asserter_fields i = Some f -> pair_facts asserter_fields [f] [i] = true -> xml_info f = Some (mkX XElement [] n false) -> xml_name [f] = None ->
     nonnil v = true -> wt (f_ty f) v -> xsane (f_ty f) v -> many_at (f_ty f) v ->
     within name (nenc (annotate v) (f_ty f) false n) = Ok els ->
     exists e, els = [e] /\ named name e /\
       forall sp l a ks', seen e (XElem sp l a ks') -> (0 + 2 * tall (XElem sp l a ks') <= limit + 1)%N ->
       decode_raw asserter_fields sp l a (map waiting ks') = Ok (set_nth i (back_field f (back_of v)) [VPtr None; VPtr None; VPtr None])).
  { intros i f v n Hi Hp Hx Hn Nn Wv Sv Mv Ev.
    destruct (read_pair asserter_fields [f] [i] [v] name els) as (e & ks & -> & N & _ & R); auto.
    - apply values_one; assumption.
    - destruct v as [| | | |[x|]| |]; try discriminate Nn. cbn [map]. rewrite (one_field f n x name Hx), Hn. exact Ev.
    - exists e. split; [reflexivity|]. split; [exact N|]. intros sp l a ks' Se T. destruct (R sp l a ks' Se T) as (_ & _ & Q). rewrite Q. f_equal.
      cbn [spread map]. replace (moved f) with true by (unfold moved; rewrite Hx; reflexivity).
      destruct i as [|[|[|i]]]; [| | |destruct i; discriminate Hi]; reflexivity. }
  change (marshal MAsserter) with (marshal MAsserter) in E.
  destruct (nonnil org) eqn:No; cbn [orb andb] in E.
  - destruct (nonnil ind); [discriminate E|].
    destruct (G 0%nat (xfield "Organization" (TPtr (TRef "OrganizationalEntity")) "organization") org "organization") as (e & -> & N & R); auto; [apply many; [reflexivity|exact Eo]|].
    exists e. split; [reflexivity|]. split; [exact N|]. intros sp l a ks' Se T. cbn [unmarshal]. unfold asserter_fields in R. rewrite (R sp l a ks' Se T). reflexivity.
  - destruct (nonnil ind) eqn:Ni.
    + destruct (G 1%nat (xfield "Individual" (TPtr (TRef "OrganizationalContact")) "contact") ind "contact") as (e & -> & N & R); auto; [apply many; [reflexivity|exact Ei]|].
      exists e. split; [reflexivity|]. split; [exact N|]. intros sp l a ks' Se T. cbn [unmarshal]. unfold asserter_fields in R. rewrite (R sp l a ks' Se T). reflexivity.
    + destruct (nonnil ref) eqn:Nr; [|injection E as <-; reflexivity].
      destruct (G 2%nat (xfield "BOMRef" (TPtr (TRef "BOMReference")) "ref") ref "ref") as (e & -> & N & R); auto; [apply many; [reflexivity|exact Er]|].
      exists e. split; [reflexivity|]. split; [exact N|]. intros sp l a ks' Se T. cbn [unmarshal]. unfold asserter_fields in R. rewrite (R sp l a ks' Se T). reflexivity.
Qed.

(** ** MIKEv2 *)
Lemma trim_front_blank : forall s, blank s = true -> trim_front (String.length s) space_bytes s = "".
Proof.
  induction s as [|a s IH]; intros B; [reflexivity|]. cbn [blank] in B. apply andb_prop in B as (A & B). cbn [String.length trim_front].
  assert (F : find (fun p => String.prefix p (String a s)) space_bytes = Some (String a "")).
  { unfold blank_char in A. cbn [existsb] in A. rewrite !Bool.orb_true_iff in A. destruct A as [A|[A|[A|[A|A]]]]; try discriminate; apply Ascii.eqb_eq in A; subst a;
      unfold space_bytes; cbn; destruct s; reflexivity. }
  rewrite F. cbn [String.length String.substring]. rewrite Nat.sub_succ, Nat.sub_0_r.
  assert (Sub : forall s', String.substring 0 (String.length s') s' = s') by (clear; induction s' as [|a s' IH]; cbn; [|rewrite IH]; reflexivity).
  rewrite Sub. apply IH, B.
Qed.
Lemma trim_blank s : blank s = true -> trim_space s = "".
Proof. intros B. unfold trim_space. rewrite (trim_front_blank s B). reflexivity. Qed.
Lemma blank_app a b : blank (a ++ b) = (blank a && blank b)%bool.
Proof. induction a as [|c a IH]; [reflexivity|]. cbn. rewrite IH, Bool.andb_assoc. reflexivity. Qed.
Lemma blank_chardata ks : forallb blank_text ks = true -> blank (chardata (map waiting ks)) = true.
Proof.
  induction ks as [|[s|sp l a ks'] ks IH]; intros H; [reflexivity| |]; cbn [forallb blank_text] in H; apply andb_prop in H as (A & H);
    cbn [map waiting chardata]; [rewrite blank_app, A|]; apply IH, H.
Qed.
Lemma no_text es : forall vs ks, forallb (fun f => field_ty (f_ty f)) es = true -> existsb is_chardata es = false -> values_ok es vs ->
  enc_fields es (map annotate vs) = Ok ks -> forallb is_elem ks = true.
Proof.
  induction es as [|f es IH]; intros [|v vs] ks F C V E; try (injection E as <-; reflexivity).
  cbn [forallb existsb] in F, C. apply andb_prop in F as (F & Fs). apply Bool.orb_false_iff in C as (C & Cs). apply values_cons in V as ((W & S & M) & V).
  cbn [enc_fields map] in E. apply bind_ok in E as (a & A & E). apply bind_ok in E as (b & B & E). injection E as <-.
  rewrite forallb_app, (IH vs b Fs Cs V B), Bool.andb_true_r.
  unfold is_chardata in C. destruct (xml_info f) as [[[] ps n o]|] eqn:X; try discriminate.
  - unfold enc_field in A. rewrite X in A. injection A as <-. reflexivity.
  - destruct (field_content f v a A ps n o X) as (els & Ce & [->|(-> & ->)]); [|reflexivity].
    destruct (content_ok f v els ps n o F W S M X Ce) as (N & _).
    assert (El : forallb is_elem els = true) by (apply forallb_forall; rewrite Forall_forall in N; intros e He; specialize (N e He); destruct e; [contradiction|reflexivity]).
    unfold wrap. destruct ps as [|p ps]; [exact El|]. cbn [fold_right]. reflexivity.
  - unfold enc_field in A. rewrite X in A. injection A as <-. reflexivity.
Qed.
Lemma all_elems_none ks : forallb is_elem ks = true -> existsb is_elem ks = false -> ks = [].
Proof. destruct ks as [|k ks]; [reflexivity|]. cbn. destruct (is_elem k); discriminate. Qed.
Lemma empty_trim ks ks' : forallb is_elem ks = true -> (existsb is_elem ks = false -> ks' = ks) -> (existsb is_elem ks = true -> forallb blank_text ks' = true) ->
  trim_space (chardata (map waiting ks')) = "".
Proof.
  intros A S1 S2. destruct (existsb is_elem ks) eqn:X; [apply trim_blank, blank_chardata, S2; reflexivity|].
  rewrite (S1 eq_refl), (all_elems_none ks A X). reflexivity.
Qed.
Definition content_field : field := xfield "Content" TStr ",chardata".
Lemma hook_ikev2 n fs vs : In (n, fs) [("IKEv2Auth", fields_IKEv2Auth); ("IKEv2Enc", fields_IKEv2Enc); ("IKEv2Integ", fields_IKEv2Integ); ("IKEv2Ke", fields_IKEv2Ke); ("IKEv2Prf", fields_IKEv2Prf)] ->
  below one_ok (VStruct vs) -> hook_at (TRef n) MIKEv2 fs vs.
Proof.
  intros I B name els W S E. destruct vs as [|r vs]; [destruct fs; [|contradiction]; destruct I as [I|[I|[I|[I|[I|[]]]]]]; discriminate I|].
  assert (F : kind_of (TRef n) = KStruct fs /\ fields_of (TRef n) = fs /\ forallb (fun f => field_ty (f_ty f)) fs = true /\ element_name (TRef n) name = name /\ f_ty (hd content_field fs) = TRef "BOMReference" )
    by (clear - I; repeat (destruct I as [I|I]; [injection I as <- <-; repeat split; reflexivity|]); destruct I).
  destruct F as (Fk & Fo & Ff & Fn & F0).
  assert (V : values_ok fs (r :: vs)) by (apply (values_struct (TRef n)); auto; [cbn [wt]; rewrite Fk; exact W|cbn [xsane]; rewrite Fo; exact S]).
  rewrite Fn. assert (Wr : wt (TRef "BOMReference") r) by (rewrite <- F0; destruct fs; [contradiction|exact (proj1 W)]).
  destruct (wt_strk (TRef "BOMReference") r eq_refl Wr) as (s & ->). clear Wr B S Ff F0.
  cbn [map marshal] in E. unfold filled, nonempty, nstr in E. rewrite !nval_annotate in E. cbn [str_of] in E.
  cbn [map back_method]. unfold bfilled, nonempty, bstr. rewrite !bval_back. cbn [str_of].
  destruct (String.eqb s "") eqn:R; cbn [negb] in *.
  - change (back_of (VStr s) :: map back_of vs) with (map back_of (VStr s :: vs)). change (annotate (VStr s) :: map annotate vs) with (map annotate (VStr s :: vs)) in E.
    assert (G : pair_facts (content_field :: tl fs) fs (seq 0 (length fs)) = true /\ xml_name (content_field :: tl fs) = None /\ xml_name fs = None /\ existsb is_chardata fs = false)
      by (clear - I; repeat (destruct I as [I|I]; [injection I as <- <-; vm_compute; repeat split; reflexivity|]); destruct I).
    destruct G as (G1 & G2 & G3 & G4).
    destruct (read_pair (content_field :: tl fs) fs (seq 0 (length fs)) (VStr s :: vs) name els G1 V E G2 G3) as (e & ks & -> & N & Ek & Q).
    exists e. split; [reflexivity|]. split; [exact N|]. intros sp l a ks' Se T. destruct (Q sp l a ks' Se T) as (S1 & S2 & Q'). clear Q E.
    pose proof (empty_trim ks ks' (no_text fs (VStr s :: vs) ks (pair_field _ _ _ G1) G4 V Ek) S1 S2) as Tr.
    destruct fs as [|f0 fs]; [contradiction|]. change (VStruct (XmlModel.zeros (f0 :: fs))) with (VStruct (zero_of (f_ty f0) :: XmlModel.zeros fs)). cbn [unmarshal].
    rewrite Fo. fold content_field. rewrite Q'. cbn [bind]. clear Q' Fo Fk G1 G2 G3 G4 Ek V. remember (chardata (map waiting ks')) as cd.
    do 5 (destruct I as [I|I]; [injection I as <- <- <-;
      destruct W as (_ & W); unzip W; cbn [map length seq tl];
      match goal with |- context [set_chardata ?a ?b ?c] => let x := eval lazy -[back_field back_of xml_clean] in (set_chardata a b c) in change (set_chardata a b c) with x end;
      cbv iota beta zeta; cbn [str_of]; rewrite Tr; eval_back; reflexivity|]); destruct I.
  - injection E as <-. exists (text_elem name s). split; [reflexivity|]. split; [reflexivity|]. intros sp l a ks' Se T.
    apply seen_text in Se as (sp' & Q). injection Q as -> -> -> ->. unfold text. rewrite R. clear V W R Fk Fo. cbn [map waiting].
    remember (xml_clean s) as c.
    do 5 (destruct I as [I|I]; [injection I as <- <-;
      match goal with |- unmarshal ?m ?t ?sp ?l ?a ?ks ?cur = _ => let x := eval lazy -[trim_space chardata] in (unmarshal m t sp l a ks cur) in change (unmarshal m t sp l a ks cur) with x end;
      cbn [chardata]; rewrite !append_nil_r; destruct (trim_space c) as [|? ?]; reflexivity|]); destruct I.
Qed.

(** ** Plain structs whose fields can be read back *)
Lemma plain_one t fs vs : kind_of t = KStruct fs -> is_bom t = false -> is_data t = false -> marshaler t = MNone -> values_ok fs vs -> one_at t (VStruct vs).
Proof.
  intros K Bm Dt M V omit name els W S E.
  assert (Fo : fields_of t = fs) by (unfold fields_of; rewrite K; reflexivity).
  assert (Bk : bback (back_of (VStruct vs)) t omit = Some (VStruct (back_fields fs (map back_of vs)))).
  { cbn [back_of bback back_value]. rewrite M, Fo. reflexivity. }
  rewrite Bk. apply (struct_values t fs vs name); auto; [unfold unmarshaler; rewrite M; reflexivity|].
  rewrite <- E. cbn [annotate nenc encode]. rewrite M, Fo. reflexivity.
Qed.

(** ** MDependency *)
Definition dep_node (s : string) : val := VStruct [VStr s; VPtr None; VPtr None].
Definition dep_list (l : list string) : val := match l with [] => VPtr None | _ => VPtr (Some (VSlice (Some (map dep_node l)))) end.
Definition dependencies_field : field := mkField "Dependencies" (TPtr (TSlice (TRef "dependencyXML"))) "xml:""dependency,omitempty""" false.
Definition provides_field : field := mkField "Provides" (TPtr (TSlice (TRef "dependencyXML"))) "xml:""provides,omitempty""" false.
Lemma dep_one s : one_at (TRef "dependencyXML") (dep_node s).
Proof.
  apply (plain_one _ fields_dependencyXML); try reflexivity. split; [|split]; cbn [zip_all]; repeat apply conj; try exact I; try apply many_nil; try reflexivity. apply many_str.
Qed.
Lemma dep_many l : many_at (TPtr (TSlice (TRef "dependencyXML"))) (dep_list l).
Proof.
  destruct l as [|s l]; [apply many_nil|]. apply many_ptr_slice; [reflexivity|]. intros l' [= <-]. constructor; [apply dep_one|].
  apply Forall_forall. intros x X. apply in_map_iff in X as (s' & <- & _). apply dep_one.
Qed.
Lemma dep_typed l : wt (TPtr (TSlice (TRef "dependencyXML"))) (dep_list l) /\ xsane (TPtr (TSlice (TRef "dependencyXML"))) (dep_list l).
Proof.
  destruct l as [|s l]; [split; exact I|]. unfold dep_list. generalize (s :: l). clear. intros l.
  split; cbn [wt xsane kind_of kind_base]; apply list_all_Forall, Forall_forall; intros x X; apply in_map_iff in X as (s & <- & _); repeat split.
Qed.
Lemma dep_enc f n l : f = dependencies_field /\ n = "dependency" \/ f = provides_field /\ n = "provides" ->
  enc_field f (annotate (dep_list l)) = Ok (map (ref_elem n) l).
Proof.
  intros H.
  assert (G : forall l, concat_all (fun x => enc_checked x (TRef "dependencyXML") true n) (map annotate (map dep_node l)) = Ok (map (ref_elem n) l)).
  { clear. induction l as [|s l IH]; [reflexivity|]. cbn [map concat_all]. rewrite IH. reflexivity. }
  destruct l as [|s l]; [destruct H as [(-> & ->)|(-> & ->)]; reflexivity|].
  unfold dep_list. specialize (G (s :: l)). revert G. generalize (s :: l). clear s l. intros l G. 
  assert (X : exists nm, xml_info f = Some (mkX XElement [] n true) /\ f_ty f = TPtr (TSlice (TRef "dependencyXML")) /\ nm = 0) by (exists 0; destruct H as [(-> & ->)|(-> & ->)]; repeat split; reflexivity).
  destruct X as (_ & X & Ty & _). unfold enc_field. rewrite X, Ty. cbn [annotate nval]. unfold enc_checked at 1. cbn [empty_value nval annotate andb nenc encode].
  change (elem_ty (TPtr (TSlice (TRef "dependencyXML")))) with (TSlice (TRef "dependencyXML")).
  change (marshaler (TSlice (TRef "dependencyXML"))) with MNone. cbv iota.
  change (elem_ty (TSlice (TRef "dependencyXML"))) with (TRef "dependencyXML"). rewrite G. reflexivity.
Qed.
Lemma dep_back f l : f = dependencies_field \/ f = provides_field ->
  back_field f (back_of (dep_list l)) = match l with [] => VPtr None | _ => some_ptr (VSlice (Some (map (fun s => dep_node (xml_clean s)) l))) end.
Proof.
  intros H.
  assert (G : forall l, somes (fun x => checked_back x (TRef "dependencyXML") true) (map back_of (map dep_node l)) = map (fun s => dep_node (xml_clean s)) l).
  { clear. induction l as [|s l IH]; [reflexivity|]. cbn [map somes]. rewrite IH. reflexivity. }
  destruct l as [|s l]; [destruct H as [-> | ->]; reflexivity|].
  assert (X : back_field f (back_of (dep_list (s :: l))) = default (TPtr (TSlice (TRef "dependencyXML"))) (option_map some_ptr (
      match somes (fun x => checked_back x (TRef "dependencyXML") true) (map back_of (map dep_node (s :: l))) with [] => None | l => Some (VSlice (Some l)) end)))
    by (destruct H as [-> | ->]; reflexivity).
  rewrite X, G. reflexivity.
Qed.
Lemma strings_back v : wt (TPtr (TSlice TStr)) v -> bptr (back_of v) (TSlice TStr) = ptr_if (map (fun s => VStr (xml_clean s)) (strings v)).
Proof.
  intros W. apply wt_ptr in W as [->|(x & -> & W)]; [reflexivity|]. apply wt_slice in W as [->|(l & -> & W)]; [reflexivity|].
  cbn [strings]. assert (G : somes (fun x => checked_back x TStr false) (map back_of l) = map (fun s => VStr (xml_clean s)) (map str_of l)).
  { induction l as [|a l IH]; [reflexivity|]. destruct W as (Wa & W). apply wt_str in Wa as (s & ->). cbn [map somes]. rewrite (IH W). reflexivity. }
  unfold bptr. cbn [back_of bback back_value option_map]. change (marshaler (elem_ty (TPtr (TSlice TStr)))) with MNone. cbv iota.
  change (elem_ty (elem_ty (TPtr (TSlice TStr)))) with TStr. rewrite G. destruct (map str_of l); reflexivity.
Qed.
Lemma hook_dependency vs : hook_at (TRef "Dependency") MDependency fields_Dependency vs.
Proof.
  intros name els W S E. unfold fields_Dependency in W.
  destruct vs as [|ref [|deps [|provides [|? ?]]]]; try contradiction; try (destruct W as (_ & []); fail); try (destruct W as (_ & _ & []); fail); [|destruct W as (_ & _ & _ & [])].
  destruct W as (Wr & Wd & Wp & _). cbn [f_ty] in *. apply wt_str in Wr as (r & ->). clear S.
  cbn [map back_method]. rewrite (strings_back deps Wd), (strings_back provides Wp).
  cbn [map marshal] in E. rewrite !nval_annotate in E. unfold nstr in E. rewrite nval_annotate in E. cbn [str_of] in E. clear Wd Wp.
  set (ds := strings deps) in *. set (ps := strings provides) in *.
  destruct (dep_typed ds) as (Wd & Sd). destruct (dep_typed ps) as (Wp & Sp).
  destruct (read_pair fields_dependencyXML fields_dependencyXML [0; 1; 2]%nat [VStr r; dep_list ds; dep_list ps] name els) as (e & ks & -> & N & _ & Q); try reflexivity.
  - split; [|split]; cbn [zip_all fields_dependencyXML f_ty]; repeat apply conj; try exact I; try apply dep_many; try assumption; try reflexivity. apply many_str.
  - rewrite <- E. unfold enc_struct, fields_dependencyXML. cbn [map enc_fields]. fold dependencies_field provides_field.
    rewrite (dep_enc dependencies_field "dependency" ds), (dep_enc provides_field "provides" ps) by auto. cbn [bind].
    replace (enc_field _ (annotate (VStr r))) with (Ok [] : xout) by reflexivity. cbn [bind app]. rewrite app_nil_r.
    cbn [enc_attrs]. destruct ds, ps; reflexivity.
  - exists e. split; [reflexivity|]. split; [exact N|]. intros sp l a ks' Se T. destruct (Q sp l a ks' Se T) as (_ & _ & Q'). clear Q E.
    remember (dep_list ds) as dv eqn:Hd. remember (dep_list ps) as pv eqn:Hp.
    eval_read Q'. subst dv pv. cbn [unmarshal]. unfold fields_dependencyXML in *. rewrite Q'. cbn [bind]. fold dependencies_field provides_field.
    change (back_field {| f_name := "Ref"; f_ty := TStr; f_tag := "xml:""ref,attr"""; f_embedded := false |} (back_of (VStr r))) with (VStr (xml_clean r)).
    rewrite !dep_back by auto. unfold bclean, bstr. rewrite bval_back. cbn [str_of].
    assert (M : forall l, match l with [] => VPtr None | _ => some_ptr (VSlice (Some (map (fun s => dep_node (xml_clean s)) l))) end = dep_list (map xml_clean l))
      by (intros [|x l0]; [reflexivity|]; cbn [map dep_list]; rewrite map_map; reflexivity).
    rewrite !M. unfold ptr_if. clearbody ds ps.
    assert (R : forall l, map (fun d => hd (VStr "") (fields_of_val d)) (match dep_list (map xml_clean l) with VPtr (Some l) => list_of_slice l | _ => [] end) = map (fun s => VStr (xml_clean s)) l).
    { clear. intros [|x l]; [reflexivity|]. cbn [map dep_list list_of_slice]. f_equal. rewrite !map_map. reflexivity. }
    rewrite !R. reflexivity.
Qed.

(** ** MLicense *)
Lemma one_license v : below one_ok v -> one_at (TRef "License") v.
Proof.
  intros B omit name els W S E. destruct (wt_struct (TRef "License") _ _ eq_refl W) as (vs & -> & Wz).
  destruct vs as [|bomref [|id [|lname vs]]]; try contradiction; try (destruct Wz as (_ & []); fail); try (destruct Wz as (_ & _ & []); fail).
  assert (Bk : bback (back_of (VStruct (bomref :: id :: lname :: vs))) (TRef "License") omit = Some (VStruct (back_fields fields_License (map back_of (bomref :: id :: lname :: vs))))) by reflexivity.
  rewrite Bk. apply (struct_one (TRef "License") fields_License (bomref :: id :: lname :: vs) name); try reflexivity; try assumption.
  change (marshal MLicense fields_License (VStruct (bomref :: id :: lname :: vs)) (map annotate (bomref :: id :: lname :: vs)) name = Ok els) in E.
  cbn [map marshal] in E. destruct (filled (annotate id) && filled (annotate lname))%bool; [discriminate|].
  destruct (negb (filled (annotate id) || filled (annotate lname)))%bool; [discriminate|]. exact E.
Qed.
End Limits.
