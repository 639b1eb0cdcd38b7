(** What is written is read back as [jback] says. *)
From Verif Require Import Base Types Univ TypeTable Wt Reify ReifyBase Consts LinkModel Version VersionProofs Numbers NumbersProofs Utf8 Utf8Proofs GobModel GobProofs JsonModel JsonBack JsonProofs JsonHooks JsonHookPatent.
From Coq Require Import Lia.
Local Open Scope string_scope.

(** ** The types with methods *)
Inductive hooked_type : ty -> hook -> list field -> Prop :=
| ht_env : hooked_type (TRef "EnvironmentVariableChoice") HEnvironmentVariable fields_EnvironmentVariableChoice
| ht_dataset : hooked_type (TRef "MLDatasetChoice") HDataset fields_MLDatasetChoice
| ht_tools : hooked_type (TRef "ToolsChoice") HTools fields_ToolsChoice
| ht_identity : hooked_type (TRef "EvidenceIdentityChoice") HIdentity fields_EvidenceIdentityChoice
| ht_license : hooked_type (TRef "License") HLicense fields_License
| ht_state : hooked_type (TRef "CertificateState") HCertState fields_CertificateState
| ht_extension : hooked_type (TRef "CertificateExtension") HCertExtension fields_CertificateExtension
| ht_asserter : hooked_type (TRef "AsserterChoice") HAsserter fields_AsserterChoice
| ht_auth : hooked_type (TRef "IKEv2Auth") HIKEv2 fields_IKEv2Auth
| ht_enc : hooked_type (TRef "IKEv2Enc") HIKEv2 fields_IKEv2Enc
| ht_integ : hooked_type (TRef "IKEv2Integ") HIKEv2 fields_IKEv2Integ
| ht_ke : hooked_type (TRef "IKEv2Ke") HIKEv2 fields_IKEv2Ke
| ht_prf : hooked_type (TRef "IKEv2Prf") HIKEv2 fields_IKEv2Prf
| ht_patent : hooked_type (TRef "PatentChoice") HPatent fields_PatentChoice.

Lemma hook_cases t : marshal_hook t = HNone \/ t = TRef "SpecVersion" \/ exists h fs, hooked_type t h fs.
Proof.
  destruct t; cbn [marshal_hook]; auto. unfold marshal_hooks. cbn [assoc].
  repeat match goal with
         | |- context [String.eqb ?a name] => destruct (String.eqb_spec a name) as [<-|]; [right; try (left; reflexivity); right; do 2 eexists; constructor|]
         end. auto.
Qed.
Lemma hooked_kind t h fs : hooked_type t h fs -> kind_of t = KStruct fs.
Proof. destruct 1; reflexivity. Qed.
Lemma hooked_marshal t h fs : hooked_type t h fs -> marshal_hook t = h.
Proof. destruct 1; reflexivity. Qed.
Lemma hooked_fields t h fs : hooked_type t h fs -> fields_of t = fs.
Proof. destruct 1; reflexivity. Qed.

Lemma plain_kind t : marshal_hook t <> HSpecVersion -> (forall fs, kind_of t <> KStruct fs) -> marshal_hook t = HNone.
Proof.
  intros N K. destruct (hook_cases t) as [H|[->|(h & fs & H)]]; [assumption|exfalso; apply N; reflexivity|].
  exfalso. eapply K, hooked_kind, H.
Qed.
Lemma unhooked t : marshal_hook t = HNone -> unmarshal_hook t = HNone.
Proof. unfold unmarshal_hook. intros ->. reflexivity. Qed.
Lemma node_plain s t cur : (forall t', t <> TPtr t') -> unmarshal_hook t = HNone -> node s t cur = plain s t cur.
Proof. intros N H. destruct t; try (exfalso; eapply N; reflexivity); cbn [node]; rewrite H; reflexivity. Qed.
Lemma not_ptr t k : kind_of t = k -> (forall t', k <> KPtr t') -> forall t', t <> TPtr t'.
Proof. intros K N t' ->. apply (N t'). rewrite <- K. reflexivity. Qed.

(** ** When [null] is written *)
Lemma marshal_env fs a b ea eb : marshal HEnvironmentVariable fs [a; b] [ea; eb] =
  if match a with VPtr (Some p) => negb (zero_value p) | _ => false end then ea true
  else if nonempty b then eb true else Ok (OObj []).
Proof. reflexivity. Qed.
Lemma marshal_dataset fs a b ea eb : marshal HDataset fs [a; b] [ea; eb] =
  if nonempty a then enc_struct true fields_mlDatasetChoiceRefJSON [a] [ea] else if nonnil b then eb true else Ok (OObj []).
Proof. reflexivity. Qed.
Lemma marshal_state fs a b ea eb : marshal HCertState fs [a; b] [ea; eb] =
  if (nonnil a && nonnil b)%bool then Err EBoth else if nonnil a then ea true else if nonnil b then eb true else Ok (OObj []).
Proof. reflexivity. Qed.
Lemma marshal_extension fs a b ea eb : marshal HCertExtension fs [a; b] [ea; eb] =
  if (nonnil a && nonnil b)%bool then Err EBoth else if nonnil a then ea true else if nonnil b then eb true else Ok (OObj []).
Proof. reflexivity. Qed.

Lemma ptr_struct_obj t fs v esc o : kind_of t = KStruct fs -> marshal_hook t = HNone -> wt (TPtr t) v -> nonnil v = true ->
  jenc esc (TPtr t) v = Ok o -> exists ms, o = OObj ms.
Proof.
  intros K H W N E. apply wt_ptr in W as [->|(x & -> & W)]; [discriminate|].
  destruct (wt_struct t fs x K W) as (vs & -> & _). apply (enc_ptr_struct t fs vs esc o K H) in E. eapply enc_struct_obj, E.
Qed.
Lemma str_out t v esc o : kind_of t = KStr -> wt t v -> jenc esc t v = Ok o -> exists e s, o = OStr e s.
Proof. intros K W E. destruct (wt_strk t v K W) as (s & ->). injection E as <-. eauto. Qed.

Definition null_iff (b : bool) (o : out) : Prop := b = true <-> o = ONull.
Lemma not_null_obj ms : null_iff false (OObj ms). Proof. split; discriminate. Qed.
Lemma not_null_str e s : null_iff false (OStr e s). Proof. split; discriminate. Qed.

Lemma null_ikev2 f fs vs o : f_ty f = TRef "BOMReference" -> zip_all (fun f x => wt (f_ty f) x) vs (f :: fs) ->
  marshal HIKEv2 (f :: fs) vs (encs vs (f :: fs)) = Ok o -> null_iff false o.
Proof.
  intros F W E. destruct vs as [|v vs]; [contradiction|]. destruct W as (W & _). rewrite F in W. cbn [encs marshal] in E. rewrite F in E.
  destruct (nonempty v).
  - destruct (str_out (TRef "BOMReference") v true o eq_refl W E) as (e & s & ->). apply not_null_str.
  - apply enc_struct_obj in E as (ms & ->). apply not_null_obj.
Qed.

Lemma hook_null t h fs vs o : hooked_type t h fs -> zip_all (fun f x => wt (f_ty f) x) vs fs ->
  marshal h fs vs (encs vs fs) = Ok o -> null_iff (nulls t (VStruct vs)) o.
Proof.
  intros T W E. cbn [nulls]. rewrite (hooked_marshal t h fs T). destruct T.
  - unfold fields_EnvironmentVariableChoice in W. destruct vs as [|a [|b [|c vs]]]; cbn [zip_all f_ty] in W; try tauto. destruct W as (Wa & Wb & _).
    change (encs [a; b] fields_EnvironmentVariableChoice) with [fun esc => jenc esc (TPtr (TRef "Property")) a; fun esc => jenc esc TStr b] in E.
    rewrite marshal_env in E. 
    destruct (match a with VPtr (Some p) => negb (zero_value p) | _ => false end) eqn:N.
    + destruct (ptr_struct_obj (TRef "Property") fields_Property a true o eq_refl eq_refl Wa) as (ms & ->); [destruct a as [| | | |[]| |]; trivial; discriminate|exact E|apply not_null_obj].
    + destruct (nonempty b).
      * destruct (str_out TStr b true o eq_refl Wb E) as (e & s & ->). apply not_null_str.
      * injection E as <-. apply not_null_obj.
  - unfold fields_MLDatasetChoice in W. destruct vs as [|a [|b [|c vs]]]; cbn [zip_all f_ty] in W; try tauto. destruct W as (Wa & Wb & _).
    change (encs [a; b] fields_MLDatasetChoice) with [fun esc => jenc esc TStr a; fun esc => jenc esc (TPtr (TRef "ComponentData")) b] in E.
    rewrite marshal_dataset in E. destruct (nonempty a).
    + apply enc_struct_obj in E as (ms & ->). apply not_null_obj.
    + destruct (nonnil b) eqn:N.
      * destruct (ptr_struct_obj (TRef "ComponentData") fields_ComponentData b true o eq_refl eq_refl Wb N E) as (ms & ->). apply not_null_obj.
      * injection E as <-. apply not_null_obj.
  - unfold fields_ToolsChoice in W. destruct vs as [|a [|b [|c [|d vs]]]]; cbn [zip_all f_ty] in W; try tauto. destruct W as (Wa & Wb & Wc & _).
    change (encs [a; b; c] fields_ToolsChoice) with [fun esc => jenc esc (TPtr (TSlice (TRef "Tool"))) a; fun esc => jenc esc (TPtr (TSlice (TRef "Component"))) b; fun esc => jenc esc (TPtr (TSlice (TRef "Service"))) c] in E.
    cbn [marshal] in E. destruct (nonnil a && (nonnil b || nonnil c))%bool; [discriminate|].
    apply wt_ptr in Wa as [->|(x & -> & Wx)].
    + rewrite nonnil_none in E. destruct (nonnil b || nonnil c)%bool; [|discriminate]. apply enc_struct_obj in E as (ms & ->). apply not_null_obj.
    + rewrite nonnil_some in E. destruct (wt_slice _ _ Wx) as [->|(l & -> & Wl)].
      * injection E as <-. split; reflexivity.
      * change (jenc true (TPtr (TSlice (TRef "Tool"))) (VPtr (Some (VSlice (Some l))))) with (jenc true (TSlice (TRef "Tool")) (VSlice (Some l))) in E.
        rewrite jenc_slice in E. apply bind_ok in E as (os & _ & E). injection E as <-. split; discriminate.
  - unfold fields_EvidenceIdentityChoice in W. destruct vs as [|a [|b [|c vs]]]; cbn [zip_all f_ty] in W; try tauto. destruct W as (Wa & Wb & _).
    change (encs [a; b] fields_EvidenceIdentityChoice) with [fun esc => jenc esc (TPtr (TRef "EvidenceIdentity")) a; fun esc => jenc esc (TPtr (TSlice (TRef "EvidenceIdentity"))) b] in E.
    cbn [marshal] in E. destruct (nonnil a && nonnil b)%bool eqn:B; [discriminate|].
    destruct (nonnil a) eqn:N.
    + destruct (ptr_struct_obj (TRef "EvidenceIdentity") fields_EvidenceIdentity a true o eq_refl eq_refl Wa N E) as (ms & ->).
      destruct a as [| | | |[]| |]; try discriminate. apply not_null_obj.
    + apply wt_ptr in Wa as [->|(x & -> & Wx)]; [|discriminate].
      apply wt_ptr in Wb as [->|(x & -> & Wx)].
      * injection E as <-. split; reflexivity.
      * rewrite nonnil_some in E. destruct (wt_slice _ _ Wx) as [->|(l & -> & Wl)].
        -- injection E as <-. split; reflexivity.
        -- change (jenc true (TPtr (TSlice (TRef "EvidenceIdentity"))) (VPtr (Some (VSlice (Some l))))) with (jenc true (TSlice (TRef "EvidenceIdentity")) (VSlice (Some l))) in E.
           rewrite jenc_slice in E. apply bind_ok in E as (os & _ & E). injection E as <-. split; discriminate.
  - destruct vs as [|a [|b [|c vs]]]; cbn [marshal] in E; try discriminate E.
    destruct (nonempty b && nonempty c)%bool; [discriminate|]. destruct (negb (nonempty b || nonempty c))%bool; [discriminate|].
    apply enc_struct_obj in E as (ms & ->). apply not_null_obj.
  - unfold fields_CertificateState in W. destruct vs as [|a [|b [|c vs]]]; cbn [zip_all f_ty] in W; try tauto. destruct W as (Wa & Wb & _).
    change (encs [a; b] fields_CertificateState) with [fun esc => jenc esc (TPtr (TRef "PredefinedCertificateState")) a; fun esc => jenc esc (TPtr (TRef "CustomCertificateState")) b] in E.
    rewrite marshal_state in E. destruct (nonnil a && nonnil b)%bool; [discriminate|].
    destruct (nonnil a) eqn:N.
    + destruct (ptr_struct_obj (TRef "PredefinedCertificateState") fields_PredefinedCertificateState a true o eq_refl eq_refl Wa N E) as (ms & ->). apply not_null_obj.
    + destruct (nonnil b) eqn:M.
      * destruct (ptr_struct_obj (TRef "CustomCertificateState") fields_CustomCertificateState b true o eq_refl eq_refl Wb M E) as (ms & ->). apply not_null_obj.
      * injection E as <-. apply not_null_obj.
  - unfold fields_CertificateExtension in W. destruct vs as [|a [|b [|c vs]]]; cbn [zip_all f_ty] in W; try tauto. destruct W as (Wa & Wb & _).
    change (encs [a; b] fields_CertificateExtension) with [fun esc => jenc esc (TPtr (TRef "CommonCertificateExtension")) a; fun esc => jenc esc (TPtr (TRef "CustomCertificateExtension")) b] in E.
    rewrite marshal_extension in E. destruct (nonnil a && nonnil b)%bool; [discriminate|].
    destruct (nonnil a) eqn:N.
    + destruct (ptr_struct_obj (TRef "CommonCertificateExtension") fields_CommonCertificateExtension a true o eq_refl eq_refl Wa N E) as (ms & ->). apply not_null_obj.
    + destruct (nonnil b) eqn:M.
      * destruct (ptr_struct_obj (TRef "CustomCertificateExtension") fields_CustomCertificateExtension b true o eq_refl eq_refl Wb M E) as (ms & ->). apply not_null_obj.
      * injection E as <-. apply not_null_obj.
  - unfold fields_AsserterChoice in W. destruct vs as [|a [|b [|c [|d vs]]]]; cbn [zip_all f_ty] in W; try tauto.
    change (encs [a; b; c] fields_AsserterChoice) with [fun esc => jenc esc (TPtr (TRef "OrganizationalEntity")) a; fun esc => jenc esc (TPtr (TRef "OrganizationalContact")) b; fun esc => jenc esc (TPtr (TRef "BOMReference")) c] in E.
    cbn [marshal] in E. destruct (nonnil a); [|destruct (nonnil b); [|destruct (nonnil c)]];
      try (apply bind_ok in E as (o1 & _ & E)); injection E as <-; apply not_null_obj.
  - refine (null_ikev2 (hd (mkField "" TStr "" false) fields_IKEv2Auth) (tl fields_IKEv2Auth) vs o eq_refl W E).
  - refine (null_ikev2 (hd (mkField "" TStr "" false) fields_IKEv2Enc) (tl fields_IKEv2Enc) vs o eq_refl W E).
  - refine (null_ikev2 (hd (mkField "" TStr "" false) fields_IKEv2Integ) (tl fields_IKEv2Integ) vs o eq_refl W E).
  - refine (null_ikev2 (hd (mkField "" TStr "" false) fields_IKEv2Ke) (tl fields_IKEv2Ke) vs o eq_refl W E).
  - refine (null_ikev2 (hd (mkField "" TStr "" false) fields_IKEv2Prf) (tl fields_IKEv2Prf) vs o eq_refl W E).
  - unfold fields_PatentChoice in W. destruct vs as [|a [|b [|c vs]]]; cbn [zip_all f_ty] in W; try tauto. destruct W as (Wa & Wb & _).
    rewrite encs_patent, marshal_patent in E. destruct (nonnil a) eqn:N.
    + destruct (ptr_struct_obj (TRef "Patent") fields_Patent a true o eq_refl eq_refl Wa N E) as (ms & ->). apply not_null_obj.
    + destruct (nonnil b) eqn:M.
      * destruct (ptr_struct_obj (TRef "PatentFamily") fields_PatentFamily b true o eq_refl eq_refl Wb M E) as (ms & ->). apply not_null_obj.
      * injection E as <-. apply not_null_obj.
Qed.

Lemma jenc_null v : forall t esc o, ok_ty t = true -> wt t v -> jenc esc t v = Ok o -> null_iff (nulls t v) o.
Proof.
  induction v as [s|z|b|f| |x IH| |l IH|vs IH] using val_induction; intros t esc o K W E.
  - injection E as <-. split; discriminate.
  - cbn [jenc] in E. destruct (marshal_hook t); injection E as <-; split; discriminate.
  - injection E as <-. split; discriminate.
  - destruct f; try discriminate. injection E as <-. split; discriminate.
  - injection E as <-. split; reflexivity.
  - cbn [wt] in W. destruct (kind_of t) as [| | | |t'| | |] eqn:Kt; try contradiction.
    destruct (kind_ptr t t' K Kt) as (-> & K'). exact (IH t' esc o K' W E).
  - injection E as <-. split; reflexivity.
  - rewrite jenc_slice in E. apply bind_ok in E as (os & _ & E). injection E as <-. split; discriminate.
  - cbn [wt] in W. destruct (kind_of t) as [| | | | | |fs|] eqn:Kt; try contradiction.
    rewrite jenc_struct in E. destruct (hook_cases t) as [H|[->|(h & fs' & H)]].
    + rewrite H in E. apply enc_struct_obj in E as (ms & ->). cbn [nulls]. rewrite H. apply not_null_obj.
    + discriminate Kt.
    + pose proof (hooked_kind _ _ _ H) as Kh. rewrite Kh in Kt. injection Kt as <-.
      rewrite (hooked_marshal _ _ _ H), (hooked_fields _ _ _ H) in E.
      eapply hook_null; [exact H|exact W|].
      assert (E' : scanned (marshal h fs' vs (encs vs fs')) = Ok o) by (destruct H; exact E).
      unfold scanned in E'. apply bind_ok in E' as (o' & E1 & E2). destruct (too_deep (erase o')); [discriminate|]. injection E2 as <-. exact E1.
Qed.

Lemma license_ok t vs o : marshal_hook t = HLicense -> marshal HLicense (fields_of t) vs (encs vs (fields_of t)) = Ok o ->
  enc_struct true (fields_of t) vs (encs vs (fields_of t)) = Ok o.
Proof.
  intros H E. destruct vs as [|a [|b [|c vs]]]; try discriminate. cbn [marshal] in E.
  destruct (nonempty b && nonempty c)%bool; [discriminate|]. destruct (negb (nonempty b || nonempty c))%bool; [discriminate|]. exact E.
Qed.

Lemma hooks_ok t h fs : hooked_type t h fs -> h <> HLicense -> hook_ok h t fs.
Proof.
  destruct 1; intros N; try contradiction.
  - exact hook_environment.
  - exact hook_dataset.
  - exact hook_tools.
  - exact hook_identity.
  - exact hook_cert_state.
  - exact hook_cert_extension.
  - exact hook_asserter.
  - exact (hook_ikev2 (TRef "IKEv2Auth") (hd (mkField "" TStr "" false) fields_IKEv2Auth) (tl fields_IKEv2Auth) eq_refl eq_refl).
  - exact (hook_ikev2 (TRef "IKEv2Enc") (hd (mkField "" TStr "" false) fields_IKEv2Enc) (tl fields_IKEv2Enc) eq_refl eq_refl).
  - exact (hook_ikev2 (TRef "IKEv2Integ") (hd (mkField "" TStr "" false) fields_IKEv2Integ) (tl fields_IKEv2Integ) eq_refl eq_refl).
  - exact (hook_ikev2 (TRef "IKEv2Ke") (hd (mkField "" TStr "" false) fields_IKEv2Ke) (tl fields_IKEv2Ke) eq_refl eq_refl).
  - exact (hook_ikev2 (TRef "IKEv2Prf") (hd (mkField "" TStr "" false) fields_IKEv2Prf) (tl fields_IKEv2Prf) eq_refl eq_refl).
  - exact hook_patent.
Qed.

Lemma hooked_unmarshal t h fs : hooked_type t h fs -> h <> HLicense -> unmarshal_hook t = h.
Proof. destruct 1; intros N; try contradiction; reflexivity. Qed.
Lemma hooked_node t h fs s cur : hooked_type t h fs -> h <> HLicense -> node s t cur = hooked (unmarshal h s t (fields_of_val cur)).
Proof. destruct 1; intros N; try contradiction; reflexivity. Qed.

Lemma elements_good l : Forall good l -> forall t esc os, ok_ty t = true -> list_all (wt t) l -> list_all (sane t) l ->
  enc_elements esc t l = Ok os ->
  dec_elements (map jdec (map erase os)) t [] = inl (map (jback t) l, None).
Proof.
  induction 1 as [|x l G _ IH]; intros t esc os K W S E.
  - injection E as <-. reflexivity.
  - cbn [enc_elements] in E. apply bind_ok in E as (o & Eo & E). apply bind_ok in E as (os' & Es & E). injection E as <-.
    destruct W as (Wx & Wl), S as (Sx & Sl). cbn [map dec_elements hd tl].
    rewrite (G t K Wx Sx esc o Eo). rewrite (IH t esc os' K Wl Sl Es). reflexivity.
Qed.

Lemma version_text_utf8 z : parse_spec_version (SpecVersion_String z) = Some z -> to_utf8 (SpecVersion_String z) = SpecVersion_String z.
Proof. intros S. apply parse_spec_version_spec in S as (V & _). apply version_cases in V as [->|[->|[->|[->|[->|[->|[->| ->]]]]]]]; reflexivity. Qed.
Lemma all_good v : good v /\ good_parts v.
Proof.
  induction v as [s|z|b|f| |x [IH IHp]| |l IH|vs IH] using val_induction;
    (split; [intros t K W S esc o E|intros ps [Q|Q]; try discriminate Q]).
  - cbn [wt] in W. injection E as <-. rewrite jdec_eq. cbn [erase shape_of].
    rewrite node_plain; [|eapply not_ptr; [exact W|discriminate]|apply unhooked, plain_kind; [|rewrite W; discriminate]].
    + unfold plain. rewrite W. reflexivity.
    + destruct t; cbn [marshal_hook]; try discriminate. intros H. destruct (hook_cases (TRef name)) as [H'|[H'|(h & fs & H')]].
      * cbn [marshal_hook] in H'. congruence.
      * rewrite H' in W. discriminate.
      * rewrite (hooked_kind _ _ _ H') in W. discriminate.
  - cbn [wt] in W. cbn [jenc] in E. cbn [sane] in S.
    destruct (hook_cases t) as [H|[->|(h & fs & H)]].
    + rewrite H in *. injection E as <-. rewrite jdec_eq. cbn [erase shape_of].
      rewrite node_plain; [|eapply not_ptr; [exact W|discriminate]|apply unhooked, H].
      unfold plain. rewrite W, (atoi_format z S). reflexivity.
    + cbn in E. injection E as <-. rewrite jdec_eq. cbn [erase shape_of].
      change (match parse_spec_version (to_utf8 (SpecVersion_String z)) with Some z0 => DVal (VInt z0) None | None => DAbort EInvalidSpecVersion end = DVal (VInt z) None).
      change (parse_spec_version (SpecVersion_String z) = Some z) in S. rewrite version_text_utf8, S by exact S. reflexivity.
    + rewrite (hooked_kind _ _ _ H) in W. discriminate.
  - cbn [wt] in W. injection E as <-. rewrite jdec_eq. cbn [erase shape_of].
    destruct (hook_cases t) as [H|[->|(h & fs & H)]]; [|discriminate W|rewrite (hooked_kind _ _ _ H) in W; discriminate].
    rewrite node_plain; [|eapply not_ptr; [exact W|discriminate]|apply unhooked, H]. unfold plain. rewrite W. reflexivity.
  - cbn [wt] in W. destruct f as [neg m e| |]; try discriminate. injection E as <-. rewrite jdec_eq. cbn [erase shape_of].
    destruct (hook_cases t) as [H|[->|(h & fs & H)]]; [|discriminate W|rewrite (hooked_kind _ _ _ H) in W; discriminate].
    rewrite node_plain; [|eapply not_ptr; [exact W|discriminate]|apply unhooked, H]. unfold plain. rewrite W.
    cbn [sane] in S. rewrite (parse_json_float _ neg m e S). reflexivity.
  - cbn [wt] in W. destruct (kind_of t) as [| | | |t'| | |] eqn:Kt; try contradiction.
    destruct (kind_ptr t t' K Kt) as (-> & K'). injection E as <-. reflexivity.
  - cbn [wt] in W. destruct (kind_of t) as [| | | |t'| | |] eqn:Kt; try contradiction.
    destruct (kind_ptr t t' K Kt) as (-> & K').
    change (jenc esc t' x = Ok o) in E. change (sane t' x) in S.
    pose proof (IH t' K' W S esc o E) as D. pose proof (jenc_null x t' esc o K' W E) as N.
    change (jback (TPtr t') (VPtr (Some x))) with (if nulls t' x then VPtr None else VPtr (Some (jback t' x))).
    destruct (nulls t' x).
    + destruct N as (N & _). rewrite (N eq_refl). reflexivity.
    + rewrite jdec_eq in *. change (zero_of (TPtr t')) with (VPtr None). cbn [node].
      destruct o; try (cbn [erase shape_of] in *; rewrite D; reflexivity).
      destruct N as (_ & N). discriminate N. reflexivity.
  - injection Q as ->. apply IHp. auto.
  - cbn [wt] in W. destruct (kind_of t) as [| | | | |t'| |] eqn:Kt; try contradiction.
    injection E as <-. rewrite jdec_eq. cbn [erase shape_of].
    destruct (hook_cases t) as [H|[->|(h & fs & H)]]; [|discriminate Kt|rewrite (hooked_kind _ _ _ H) in Kt; discriminate].
    rewrite node_plain; [|eapply not_ptr; [exact Kt|discriminate]|apply unhooked, H]. unfold plain. rewrite Kt. reflexivity.
  - cbn [wt] in W. destruct (kind_of t) as [| | | | |t'| |] eqn:Kt; try contradiction.
    rewrite jenc_slice in E. apply bind_ok in E as (os & E & Eo). injection Eo as <-.
    destruct (hook_cases t) as [H|[->|(h & fs & H)]]; [|discriminate Kt|rewrite (hooked_kind _ _ _ H) in Kt; discriminate].
    rewrite jdec_eq. cbn [erase shape_of].
    rewrite node_plain; [|eapply not_ptr; [exact Kt|discriminate]|apply unhooked, H].
    assert (Et : elem_ty t = t') by (unfold elem_ty; rewrite Kt; reflexivity).
    cbn [sane] in S. cbn [jback]. rewrite Et in *. unfold plain. rewrite Kt.
    assert (Z : list_of_slice (zero_of t) = []) by (unfold zero_of; cbn [zero_n]; rewrite Kt; reflexivity). rewrite Z.
    rewrite (elements_good l) with (esc := esc); try assumption; [reflexivity|rewrite Forall_forall in *; intros y Hy; apply IH, Hy|].
    apply elem_ok_ok, (slice_ok t t' K Kt).
  - cbn [wt] in W. destruct (kind_of t) as [| | | | | |fs|] eqn:Kt; try contradiction.
    pose proof (sane_struct t fs vs Kt S) as S'. pose proof (fields_of_kind t fs Kt) as Ft.
    assert (G : Forall good vs) by (rewrite Forall_forall in *; intros y Hy; apply IH, Hy).
    assert (P : Forall good_parts vs) by (rewrite Forall_forall in *; intros y Hy; apply IH, Hy).
    pose proof (rows_of vs G fs (struct_ok t fs Kt) W S') as R.
    rewrite jenc_struct, Ft in E. rewrite jback_struct, Ft, jdec_eq.
    destruct (hook_cases t) as [H|[->|(h & fs' & H)]]; [|discriminate Kt|].
    + rewrite H in *. rewrite node_plain; [|eapply not_ptr; [exact Kt|discriminate]|apply unhooked, H].
      cbn [back_choice]. eapply plain_self; eassumption.
    + pose proof (hooked_kind _ _ _ H) as Kh. rewrite Kh in Kt. injection Kt as <-.
      assert (E' : scanned (marshal h fs' vs (encs vs fs')) = Ok o) by (rewrite (hooked_marshal _ _ _ H) in E; destruct H; exact E).
      unfold scanned in E'. apply bind_ok in E' as (o' & E1 & E2). destruct (too_deep (erase o')); [discriminate|]. injection E2 as ->.
      rewrite (hooked_marshal _ _ _ H).
      assert (D : h = HLicense \/ h <> HLicense) by (destruct h; auto; right; discriminate). destruct D as [->|D].
      * rewrite node_plain; [|eapply not_ptr; [exact Kh|discriminate]|unfold unmarshal_hook; rewrite (hooked_marshal _ _ _ H); reflexivity].
        rewrite <- Ft in E1. apply license_ok in E1; [|apply (hooked_marshal _ _ _ H)]. rewrite Ft in E1.
        cbn [back_choice]. eapply plain_self; eassumption.
      * rewrite (hooked_node _ _ _ _ _ H D). rewrite (zero_struct _ _ Kh). cbn [fields_of_val].
        rewrite (hooks_ok _ _ _ H D vs o W S' G P E1). reflexivity.
  - injection Q as ->. rewrite Forall_forall in *. intros y Hy. apply IH, Hy.
Qed.
