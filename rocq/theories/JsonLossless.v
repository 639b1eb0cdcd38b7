(** [lossless] says exactly when [jback] changes nothing. *)
From Verif Require Import Base Types Univ TypeTable Wt Reify ReifyBase Consts LinkModel Version VersionProofs Numbers NumbersProofs Utf8 Utf8Proofs GobModel GobProofs JsonModel JsonBack JsonProofs JsonHooks JsonHookPatent JsonRound JsonSpec.
From Coq Require Import Lia.
Local Open Scope string_scope.

Definition losses :=
  fix each (vs : list val) (fs : list field) {struct vs} : list Prop :=
    match vs, fs with
    | x :: vs', f :: fs' => lossless (f_ty f) x :: each vs' fs'
    | _, _ => []
    end.
Lemma lossless_struct t vs : lossless t (VStruct vs) = choice_lossless (marshal_hook t) (fields_of t) vs (losses vs (fields_of t)).
Proof. reflexivity. Qed.

Definition same (t : ty) (v : val) : Prop := lossless t v -> jback t v = v.

Lemma fields_same fs : forall vs, zip_all (fun f x => wt (f_ty f) x) vs fs -> zip_all (fun f x => same (f_ty f) x) vs fs ->
  fields_lossless fs vs (losses vs fs) -> back_fields fs vs (backs vs fs) = vs.
Proof.
  induction fs as [|f fs IH]; intros [|v vs] W S L; cbn in W, S; try contradiction; [reflexivity|].
  cbn [losses fields_lossless] in L. cbn [backs back_fields]. destruct W as (_ & W), S as (Sv & S), L as (Lv & L).
  f_equal; [|apply IH; assumption].
  destruct (json_info f) as [[n om]|]; [|congruence]. destruct (om && empty_value v)%bool; [congruence|apply Sv, Lv].
Qed.

Ltac fields2' vs a b W S :=
  destruct vs as [|a [|b [|? vs]]]; cbn [zip_all f_ty] in W, S; try tauto.

Lemma choice_same t h fs vs : hooked_type t h fs -> zip_all (fun f x => wt (f_ty f) x) vs fs ->
  zip_all (fun f x => same (f_ty f) x) vs fs ->
  choice_lossless h fs vs (losses vs fs) -> back_choice h fs vs (backs vs fs) = vs.
Proof.
  intros T W S L.
  assert (L2 : h = HLicense -> back_fields fs vs (backs vs fs) = vs).
  { intros ->. apply fields_same; trivial. }
  assert (LK : forall f rest, fs = f :: rest -> f_ty f = TRef "BOMReference" -> h = HIKEv2 -> back_choice HIKEv2 fs vs (backs vs fs) = vs).
  { intros f rest -> F ->. destruct vs as [|r vs]; [contradiction|]. pose proof W as (Wr & _). rewrite F in Wr.
    destruct (wt_strk (TRef "BOMReference") r eq_refl Wr) as (s & ->).
    pose proof (fields_same (f :: rest) (VStr s :: vs) W S) as FS.
    cbn [losses choice_lossless tl] in L. cbn [backs back_choice] in FS |- *. cbn [losses] in FS. unfold nonempty. cbn [str_of].
    destruct L as [(N & Ls & ->)|(E & Lf)].
    - destruct (String.eqb_spec s "") as [->|_]; [contradiction|]. cbn [negb tl]. f_equal.
      destruct S as (Sr & _). apply Sr, Ls.
    - injection E as ->. cbn [negb String.eqb]. apply FS, Lf. }
  destruct T; try (apply L2; reflexivity); try (eapply LK; reflexivity).
  - unfold fields_EnvironmentVariableChoice in W, S. fields2' vs a b W S.
    change (losses [a; b] fields_EnvironmentVariableChoice) with [lossless (TPtr (TRef "Property")) a; lossless TStr b] in L.
    change (backs [a; b] fields_EnvironmentVariableChoice) with [jback (TPtr (TRef "Property")) a; jback TStr b].
    destruct S as (Sa & Sb & _). cbn [choice_lossless] in L. cbn [back_choice].
    destruct L as [(-> & Lb)|((p & -> & Z) & La & ->)].
    + rewrite (Sb Lb). reflexivity.
    + rewrite Z. cbn [negb]. rewrite (Sa La). reflexivity.
  - unfold fields_MLDatasetChoice in W, S. fields2' vs a b W S.
    change (losses [a; b] fields_MLDatasetChoice) with [lossless TStr a; lossless (TPtr (TRef "ComponentData")) b] in L.
    change (backs [a; b] fields_MLDatasetChoice) with [jback TStr a; jback (TPtr (TRef "ComponentData")) b].
    destruct S as (Sa & Sb & _), W as (Wa & Wb & _). cbn [choice_lossless] in L. cbn [back_choice].
    destruct (wt_str a Wa) as (s & ->).
    destruct L as [(N & La & ->)|(-> & L)].
    + unfold nonempty. cbn [str_of]. destruct (String.eqb_spec s "") as [->|_]; [contradiction|]. cbn [negb]. rewrite (Sa La). reflexivity.
    + change (nonempty (VStr "")) with false. cbv iota. destruct L as [->|((d & -> & Z) & Lb)]; [reflexivity|].
      rewrite (Sb Lb). rewrite Z. reflexivity.
  - unfold fields_ToolsChoice in W, S. destruct vs as [|a [|b [|c [|? vs]]]]; cbn [zip_all f_ty] in W, S; try tauto.
    change (losses [a; b; c] fields_ToolsChoice) with [lossless (TPtr (TSlice (TRef "Tool"))) a; lossless (TPtr (TSlice (TRef "Component"))) b; lossless (TPtr (TSlice (TRef "Service"))) c] in L.
    change (backs [a; b; c] fields_ToolsChoice) with [jback (TPtr (TSlice (TRef "Tool"))) a; jback (TPtr (TSlice (TRef "Component"))) b; jback (TPtr (TSlice (TRef "Service"))) c].
    destruct S as (Sa & Sb & Sc & _). cbn [choice_lossless] in L. cbn [back_choice].
    destruct L as [(_ & La & -> & ->)|(-> & Lb & Lc)].
    + rewrite (Sa La). reflexivity.
    + rewrite (Sb Lb), (Sc Lc). reflexivity.
  - unfold fields_EvidenceIdentityChoice in W, S. fields2' vs a b W S.
    change (losses [a; b] fields_EvidenceIdentityChoice) with [lossless (TPtr (TRef "EvidenceIdentity")) a; lossless (TPtr (TSlice (TRef "EvidenceIdentity"))) b] in L.
    change (backs [a; b] fields_EvidenceIdentityChoice) with [jback (TPtr (TRef "EvidenceIdentity")) a; jback (TPtr (TSlice (TRef "EvidenceIdentity"))) b].
    destruct S as (Sa & Sb & _). cbn [choice_lossless] in L. 
    destruct L as [((x & ->) & La & ->)|(-> & (x & ->) & Lb)].
    + rewrite (Sa La). reflexivity.
    + rewrite (Sb Lb). reflexivity.
  - unfold fields_CertificateState in W, S. fields2' vs a b W S.
    change (losses [a; b] fields_CertificateState) with [lossless (TPtr (TRef "PredefinedCertificateState")) a; lossless (TPtr (TRef "CustomCertificateState")) b] in L.
    change (backs [a; b] fields_CertificateState) with [jback (TPtr (TRef "PredefinedCertificateState")) a; jback (TPtr (TRef "CustomCertificateState")) b].
    destruct S as (Sa & Sb & _). cbn [choice_lossless] in L.
    destruct L as [((s & x & -> & N) & La & ->)|(-> & (x & ->) & Lb)].
    + rewrite (Sa La). cbn [back_choice]. destruct (String.eqb_spec s ""); [contradiction|reflexivity].
    + rewrite (Sb Lb). reflexivity.
  - unfold fields_CertificateExtension in W, S. fields2' vs a b W S.
    change (losses [a; b] fields_CertificateExtension) with [lossless (TPtr (TRef "CommonCertificateExtension")) a; lossless (TPtr (TRef "CustomCertificateExtension")) b] in L.
    change (backs [a; b] fields_CertificateExtension) with [jback (TPtr (TRef "CommonCertificateExtension")) a; jback (TPtr (TRef "CustomCertificateExtension")) b].
    destruct S as (Sa & Sb & _). cbn [choice_lossless] in L.
    destruct L as [((s & x & -> & N) & La & ->)|(-> & (x & ->) & Lb)].
    + rewrite (Sa La). cbn [back_choice]. destruct (String.eqb_spec s ""); [contradiction|reflexivity].
    + rewrite (Sb Lb). reflexivity.
  - unfold fields_AsserterChoice in W, S. destruct vs as [|a [|b [|c [|? vs]]]]; cbn [zip_all f_ty] in W, S; try tauto.
    change (losses [a; b; c] fields_AsserterChoice) with [lossless (TPtr (TRef "OrganizationalEntity")) a; lossless (TPtr (TRef "OrganizationalContact")) b; lossless (TPtr (TRef "BOMReference")) c] in L.
    change (backs [a; b; c] fields_AsserterChoice) with [jback (TPtr (TRef "OrganizationalEntity")) a; jback (TPtr (TRef "OrganizationalContact")) b; jback (TPtr (TRef "BOMReference")) c].
    destruct S as (Sa & Sb & Sc & _). cbn [choice_lossless] in L. cbn [back_choice].
    destruct W as (Wa & Wb & Wc & _).
    destruct L as [(La & -> & ->)|[(-> & Lb & ->)|(-> & -> & Lc)]].
    + rewrite (Sa La). destruct (wt_ptr _ _ Wa) as [->|(x & -> & _)]; reflexivity.
    + rewrite (Sb Lb). destruct (wt_ptr _ _ Wb) as [->|(x & -> & _)]; reflexivity.
    + rewrite (Sc Lc). reflexivity.
  - unfold fields_PatentChoice in W, S. fields2' vs a b W S.
    change (losses [a; b] fields_PatentChoice) with [lossless (TPtr (TRef "Patent")) a; lossless (TPtr (TRef "PatentFamily")) b] in L.
    rewrite backs_patent.
    destruct S as (Sa & Sb & _). cbn [choice_lossless] in L.
    destruct L as [((x & ->) & La & ->)|(-> & (r & s & p & m & e & -> & N) & Lb)].
    + rewrite (Sa La). reflexivity.
    + rewrite (Sb Lb), back_family. destruct (String.eqb_spec s ""); [contradiction|reflexivity].
Qed.

Lemma lossless_same v : forall t, ok_ty t = true -> wt t v -> same t v.
Proof.
  induction v as [s|z|b|f| |x IH| |l IH|vs IH] using val_induction; intros t K W L; try reflexivity.
  - cbn [jback]. f_equal. apply to_utf8_valid, L.
  - cbn [wt] in W. destruct (kind_of t) as [| | | |t'| | |] eqn:Kt; try contradiction.
    destruct (kind_ptr t t' K Kt) as (-> & K'). destruct L as (N & L). change (elem_ty (TPtr t')) with t' in *.
    change (jback (TPtr t') (VPtr (Some x))) with (if nulls t' x then VPtr None else VPtr (Some (jback t' x))).
    rewrite N, (IH t' K' W L). reflexivity.
  - cbn [wt] in W. destruct (kind_of t) as [| | | | |t'| |] eqn:Kt; try contradiction.
    assert (Et : elem_ty t = t') by (unfold elem_ty; rewrite Kt; reflexivity).
    cbn [lossless jback] in *. rewrite Et in *. do 2 f_equal. rewrite list_all_forall in *. rewrite <- (map_id l) at 2.
    apply map_ext_in. intros y Hy. rewrite Forall_forall in *. apply IH; auto. apply elem_ok_ok, (slice_ok t t' K Kt).
  - rewrite jback_struct. rewrite lossless_struct in L. f_equal.
    cbn [wt] in W. destruct (kind_of t) as [| | | | | |fs|] eqn:Kt; try contradiction.
    rewrite (fields_of_kind t fs Kt) in *.
    assert (S : zip_all (fun f x => same (f_ty f) x) vs fs).
    { pose proof (struct_ok t fs Kt) as O. clear -IH W O. revert fs W O. induction IH as [|x l Hx _ IHl]; intros [|f fs] W O; cbn in *; auto.
      apply andb_prop in O as (O1 & O2). destruct W as (W1 & W2). split; [apply Hx; assumption|apply IHl; assumption]. }
    destruct (hook_cases t) as [H|[->|(h & fs' & H)]]; [|discriminate Kt|].
    + rewrite H in *. apply fields_same; assumption.
    + rewrite (hooked_kind _ _ _ H) in Kt. injection Kt as <-. rewrite (hooked_marshal _ _ _ H) in *.
      eapply choice_same; eassumption.
Qed.

(** ** And conversely *)
Definition kept (t : ty) (v : val) : Prop := forall esc o, jenc esc t v = Ok o -> jback t v = v -> lossless t v.

Lemma fields_kept fs : forall vs esc ms, zip_all (fun f x => wt (f_ty f) x) vs fs -> zip_all (fun f x => kept (f_ty f) x) vs fs ->
  enc_members esc fs vs (encs vs fs) = Ok ms -> back_fields fs vs (backs vs fs) = vs -> fields_lossless fs vs (losses vs fs).
Proof.
  induction fs as [|f fs IH]; intros [|v vs] esc ms W S E B; cbn in W, S; try contradiction; [exact I|].
  cbn [losses fields_lossless]. cbn [backs back_fields] in B. cbn [encs enc_members] in E.
  destruct W as (_ & W), S as (Sv & S). injection B as Bv B.
  destruct (json_info f) as [[n om]|].
  - destruct (om && empty_value v)%bool.
    + split; [congruence|eapply IH; eassumption].
    + apply bind_ok in E as (o & Eo & E). apply bind_ok in E as (ms' & Em & _). split; [eapply Sv; eassumption|eapply IH; eassumption].
  - split; [congruence|eapply IH; eassumption].
Qed.

Lemma nonempty_ne s : nonempty (VStr s) = true -> VStr s <> VStr "".
Proof. intros N [= ->]. discriminate N. Qed.
Lemma empty_eq s : nonempty (VStr s) = false -> VStr s = VStr "".
Proof. unfold nonempty. cbn [str_of]. destruct (String.eqb_spec s ""); [congruence|discriminate]. Qed.

Lemma ikev2_kept f rest vs o : f_ty f = TRef "BOMReference" ->
  zip_all (fun f x => wt (f_ty f) x) vs (f :: rest) -> zip_all (fun f x => kept (f_ty f) x) vs (f :: rest) ->
  marshal HIKEv2 (f :: rest) vs (encs vs (f :: rest)) = Ok o -> back_choice HIKEv2 (f :: rest) vs (backs vs (f :: rest)) = vs ->
  choice_lossless HIKEv2 (f :: rest) vs (losses vs (f :: rest)).
Proof.
  intros F W S E B. destruct vs as [|r vs]; [contradiction|]. pose proof W as (Wr & _). rewrite F in Wr.
  destruct (wt_strk (TRef "BOMReference") r eq_refl Wr) as (s & ->).
  pose proof (fields_kept (f :: rest) (VStr s :: vs) true) as FK.
  cbn [losses choice_lossless tl]. cbn [backs back_choice] in B. cbn [encs marshal] in E. cbn [encs backs losses] in FK.
  destruct (nonempty (VStr s)) eqn:N.
  - left. injection B as Bs B. split; [apply nonempty_ne, N|]. split; [|congruence]. destruct S as (Sr & _). rewrite F in *. eapply Sr; [exact E|].
    cbn [jback]. congruence.
  - right. split; [apply empty_eq, N|]. apply bind_ok in E as (ms & E & _). eapply FK; eassumption.
Qed.

Lemma points_nonnil v t : wt (TPtr t) v -> nonnil v = true -> points v.
Proof. intros W N. destruct (wt_ptr t v W) as [->|(x & -> & _)]; [discriminate|exists x; reflexivity]. Qed.
Lemma nil_nonnil v t : wt (TPtr t) v -> nonnil v = false -> nil_ptr v.
Proof. intros W N. destruct (wt_ptr t v W) as [->|(x & -> & _)]; [reflexivity|discriminate]. Qed.

Lemma choice_kept t h fs vs o : hooked_type t h fs -> zip_all (fun f x => wt (f_ty f) x) vs fs ->
  zip_all (fun f x => kept (f_ty f) x) vs fs ->
  marshal h fs vs (encs vs fs) = Ok o ->
  back_choice h fs vs (backs vs fs) = vs -> choice_lossless h fs vs (losses vs fs).
Proof.
  intros T W S E B. destruct T.
  - unfold fields_EnvironmentVariableChoice in W, S. fields2' vs a b W S.
    change (losses [a; b] fields_EnvironmentVariableChoice) with [lossless (TPtr (TRef "Property")) a; lossless TStr b].
    change (backs [a; b] fields_EnvironmentVariableChoice) with [jback (TPtr (TRef "Property")) a; jback TStr b] in B.
    change (encs [a; b] fields_EnvironmentVariableChoice) with [fun esc => jenc esc (TPtr (TRef "Property")) a; fun esc => jenc esc TStr b] in E.
    destruct S as (Sa & Sb & _), W as (Wa & Wb & _). rewrite marshal_env in E. cbn [back_choice] in B. cbn [choice_lossless].
    destruct (wt_str b Wb) as (s & ->). destruct (wt_ptr _ _ Wa) as [->|(p & -> & Wp)].
    + left. split; [reflexivity|]. injection B as B. apply utf8_iff. exact B.
    + destruct (zero_value p) eqn:Z; cbn [negb] in *; [discriminate B|]. right. injection B as B1 B2. rewrite <- B2.
      split; [eauto|]. split; [eapply Sa; eassumption|reflexivity].
  - unfold fields_MLDatasetChoice in W, S. fields2' vs a b W S.
    change (losses [a; b] fields_MLDatasetChoice) with [lossless TStr a; lossless (TPtr (TRef "ComponentData")) b].
    change (backs [a; b] fields_MLDatasetChoice) with [jback TStr a; jback (TPtr (TRef "ComponentData")) b] in B.
    change (encs [a; b] fields_MLDatasetChoice) with [fun esc => jenc esc TStr a; fun esc => jenc esc (TPtr (TRef "ComponentData")) b] in E.
    destruct S as (Sa & Sb & _), W as (Wa & Wb & _). rewrite marshal_dataset in E. cbn [back_choice] in B. cbn [choice_lossless].
    destruct (wt_str a Wa) as (s & ->). destruct (nonempty (VStr s)) eqn:N.
    + left. injection B as B1 B2. split; [apply nonempty_ne, N|]. split; [apply utf8_iff; exact B1|symmetry; exact B2].
    + right. split; [apply empty_eq, N|]. destruct (nonnil b) eqn:M; [right|left; eapply nil_nonnil; eassumption].
      destruct (points_nonnil _ _ Wb M) as (d & ->).
      destruct (jback (TPtr (TRef "ComponentData")) (VPtr (Some d))) as [| | | |[d2|]| |] eqn:J; try discriminate B.
      destruct (zero_value d2) eqn:Z; [discriminate B|]. injection B as _ B. subst d2. split; [eauto|]. eapply Sb; eassumption.
  - unfold fields_ToolsChoice in W, S. destruct vs as [|a [|b [|c [|? vs]]]]; cbn [zip_all f_ty] in W, S; try tauto.
    change (losses [a; b; c] fields_ToolsChoice) with [lossless (TPtr (TSlice (TRef "Tool"))) a; lossless (TPtr (TSlice (TRef "Component"))) b; lossless (TPtr (TSlice (TRef "Service"))) c].
    change (backs [a; b; c] fields_ToolsChoice) with [jback (TPtr (TSlice (TRef "Tool"))) a; jback (TPtr (TSlice (TRef "Component"))) b; jback (TPtr (TSlice (TRef "Service"))) c] in B.
    change (encs [a; b; c] fields_ToolsChoice) with [fun esc => jenc esc (TPtr (TSlice (TRef "Tool"))) a; fun esc => jenc esc (TPtr (TSlice (TRef "Component"))) b; fun esc => jenc esc (TPtr (TSlice (TRef "Service"))) c] in E.
    destruct S as (Sa & Sb & Sc & _), W as (Wa & Wb & Wc & _). cbn [marshal] in E. cbn [back_choice] in B. cbn [choice_lossless].
    injection B as B1 B2 B3.
    destruct (nonnil a) eqn:Na; cbn [andb] in E.
    + left. destruct (nonnil b || nonnil c)%bool eqn:N; [discriminate|]. apply orb_false_iff in N as (Nb & Nc).
      split; [eapply points_nonnil; eassumption|]. split; [eapply Sa; eassumption|]. split; eapply nil_nonnil; eassumption.
    + right. destruct (nonnil b || nonnil c)%bool eqn:N; [|discriminate].
      split; [eapply nil_nonnil; eassumption|].
      apply bind_ok in E as (ms & E & _).
      destruct (wt_ptr _ _ Wb) as [->|(x & -> & Wx)].
      * destruct (wt_ptr _ _ Wc) as [->|(y & -> & Wy)]; [discriminate N|]. split; [exact I|].
        cbn [fields_toolsChoiceJSON enc_members] in E.
        change (json_info (mkField "Components" (TPtr (TSlice (TRef "Component"))) "json:""components,omitempty"" xml:""-""" false)) with (Some ("components", true)) in E.
        change (json_info (mkField "Services" (TPtr (TSlice (TRef "Service"))) "json:""services,omitempty"" xml:""-""" false)) with (Some ("services", true)) in E.
        cbn [empty_value andb] in E. apply bind_ok in E as (o1 & E & _). eapply Sc; eassumption.
      * cbn [fields_toolsChoiceJSON enc_members] in E.
        change (json_info (mkField "Components" (TPtr (TSlice (TRef "Component"))) "json:""components,omitempty"" xml:""-""" false)) with (Some ("components", true)) in E.
        change (json_info (mkField "Services" (TPtr (TSlice (TRef "Service"))) "json:""services,omitempty"" xml:""-""" false)) with (Some ("services", true)) in E.
        cbn [empty_value andb] in E. apply bind_ok in E as (o1 & E1 & E). apply bind_ok in E as (ms2 & E & _).
        split; [eapply Sb; eassumption|].
        destruct (wt_ptr _ _ Wc) as [->|(y & -> & Wy)]; [exact I|].
        cbn [empty_value andb] in E. apply bind_ok in E as (o2 & E & _). eapply Sc; eassumption.
  - unfold fields_EvidenceIdentityChoice in W, S. fields2' vs a b W S.
    change (losses [a; b] fields_EvidenceIdentityChoice) with [lossless (TPtr (TRef "EvidenceIdentity")) a; lossless (TPtr (TSlice (TRef "EvidenceIdentity"))) b].
    change (backs [a; b] fields_EvidenceIdentityChoice) with [jback (TPtr (TRef "EvidenceIdentity")) a; jback (TPtr (TSlice (TRef "EvidenceIdentity"))) b] in B.
    change (encs [a; b] fields_EvidenceIdentityChoice) with [fun esc => jenc esc (TPtr (TRef "EvidenceIdentity")) a; fun esc => jenc esc (TPtr (TSlice (TRef "EvidenceIdentity"))) b] in E.
    destruct S as (Sa & Sb & _), W as (Wa & Wb & _). cbn [marshal] in E. cbn [choice_lossless].
    destruct (nonnil a) eqn:Na; cbn [andb] in E.
    + destruct (nonnil b) eqn:Nb; [discriminate|]. left. split; [eapply points_nonnil; eassumption|]. split; [|eapply nil_nonnil; eassumption].
      eapply Sa; [exact E|]. rewrite (nil_nonnil _ _ Wb Nb) in B. change (jback (TPtr (TSlice (TRef "EvidenceIdentity"))) (VPtr None)) with (VPtr None) in B.
      destruct (points_nonnil _ _ Wa Na) as (x & ->). destruct (wt_ptr _ _ Wa) as [Q|(x' & Q & Wx)]; [discriminate|]. injection Q as <-.
      destruct (wt_struct (TRef "EvidenceIdentity") fields_EvidenceIdentity x eq_refl Wx) as (ps & -> & _).
      rewrite (back_ptr_struct (TRef "EvidenceIdentity") fields_EvidenceIdentity ps eq_refl eq_refl) in *.
      cbn [back_choice] in B. exact (f_equal (hd (VPtr None)) B).
    + pose proof (nil_nonnil _ _ Wa Na) as ->. change (jback (TPtr (TRef "EvidenceIdentity")) (VPtr None)) with (VPtr None) in B.
      destruct (nonnil b) eqn:Nb.
      * right. split; [reflexivity|]. split; [eapply points_nonnil; eassumption|]. eapply Sb; [exact E|].
        destruct (points_nonnil _ _ Wb Nb) as (x & ->).
        destruct (jback (TPtr (TSlice (TRef "EvidenceIdentity"))) (VPtr (Some x))) as [| | | |[y|]| |] eqn:J; cbn [back_choice] in B; try discriminate B; congruence.
      * rewrite (nil_nonnil _ _ Wb Nb) in B. discriminate B.
  - destruct vs as [|a [|b [|c vs]]]; cbn [marshal] in E; try discriminate E.
    destruct (nonempty b && nonempty c)%bool; [discriminate|]. destruct (negb (nonempty b || nonempty c))%bool; [discriminate|].
    apply bind_ok in E as (ms & E & _). cbn [choice_lossless]. eapply fields_kept; eassumption.
  - unfold fields_CertificateState in W, S. fields2' vs a b W S.
    change (losses [a; b] fields_CertificateState) with [lossless (TPtr (TRef "PredefinedCertificateState")) a; lossless (TPtr (TRef "CustomCertificateState")) b].
    change (backs [a; b] fields_CertificateState) with [jback (TPtr (TRef "PredefinedCertificateState")) a; jback (TPtr (TRef "CustomCertificateState")) b] in B.
    change (encs [a; b] fields_CertificateState) with [fun esc => jenc esc (TPtr (TRef "PredefinedCertificateState")) a; fun esc => jenc esc (TPtr (TRef "CustomCertificateState")) b] in E.
    destruct S as (Sa & Sb & _), W as (Wa & Wb & _). rewrite marshal_state in E. cbn [choice_lossless].
    destruct (nonnil a) eqn:Na; cbn [andb] in E.
    + destruct (nonnil b) eqn:Nb; [discriminate|]. left. pose proof (nil_nonnil _ _ Wb Nb) as ->.
      destruct (points_nonnil _ _ Wa Na) as (x & ->). destruct (wt_ptr _ _ Wa) as [Q|(x' & Q & Wx)]; [discriminate|]. injection Q as <-.
      destruct (wt_struct (TRef "PredefinedCertificateState") fields_PredefinedCertificateState x eq_refl Wx) as (ps & -> & Wp).
      unfold fields_PredefinedCertificateState in Wp. destruct ps as [|p [|q [|? ps]]]; cbn [zip_all f_ty] in Wp; try tauto. destruct Wp as (Wp & Wq & _).
      destruct (wt_str p Wp) as (sp & ->), (wt_str q Wq) as (sq & ->).
      assert (J : jback (TPtr (TRef "PredefinedCertificateState")) (VPtr (Some (VStruct [VStr sp; VStr sq]))) = VPtr (Some (VStruct [VStr (to_utf8 sp); VStr (to_utf8 sq)]))).
      { rewrite (back_ptr_struct (TRef "PredefinedCertificateState") fields_PredefinedCertificateState _ eq_refl eq_refl). destruct sq; reflexivity. }
      rewrite J in B. cbn [back_choice] in B. destruct (String.eqb_spec (to_utf8 sp) "") as [Z|Z]; [discriminate B|].
      injection B as B1 B2. split; [|split; [|reflexivity]].
      * exists sp, (VStr sq). split; [reflexivity|]. congruence.
      * eapply Sa; [exact E|]. rewrite J, B1, B2. reflexivity.
    + pose proof (nil_nonnil _ _ Wa Na) as ->. destruct (nonnil b) eqn:Nb.
      * right. split; [reflexivity|]. split; [eapply points_nonnil; eassumption|]. eapply Sb; [exact E|].
        destruct (points_nonnil _ _ Wb Nb) as (x & ->). cbn [back_choice] in B. congruence.
      * rewrite (nil_nonnil _ _ Wb Nb) in B. discriminate B.
  - unfold fields_CertificateExtension in W, S. fields2' vs a b W S.
    change (losses [a; b] fields_CertificateExtension) with [lossless (TPtr (TRef "CommonCertificateExtension")) a; lossless (TPtr (TRef "CustomCertificateExtension")) b].
    change (backs [a; b] fields_CertificateExtension) with [jback (TPtr (TRef "CommonCertificateExtension")) a; jback (TPtr (TRef "CustomCertificateExtension")) b] in B.
    change (encs [a; b] fields_CertificateExtension) with [fun esc => jenc esc (TPtr (TRef "CommonCertificateExtension")) a; fun esc => jenc esc (TPtr (TRef "CustomCertificateExtension")) b] in E.
    destruct S as (Sa & Sb & _), W as (Wa & Wb & _). rewrite marshal_extension in E. cbn [choice_lossless].
    destruct (nonnil a) eqn:Na; cbn [andb] in E.
    + destruct (nonnil b) eqn:Nb; [discriminate|]. left. pose proof (nil_nonnil _ _ Wb Nb) as ->.
      destruct (points_nonnil _ _ Wa Na) as (x & ->). destruct (wt_ptr _ _ Wa) as [Q|(x' & Q & Wx)]; [discriminate|]. injection Q as <-.
      destruct (wt_struct (TRef "CommonCertificateExtension") fields_CommonCertificateExtension x eq_refl Wx) as (ps & -> & Wp).
      unfold fields_CommonCertificateExtension in Wp. destruct ps as [|p [|q [|? ps]]]; cbn [zip_all f_ty] in Wp; try tauto. destruct Wp as (Wp & Wq & _).
      destruct (wt_str p Wp) as (sp & ->), (wt_str q Wq) as (sq & ->).
      assert (J : jback (TPtr (TRef "CommonCertificateExtension")) (VPtr (Some (VStruct [VStr sp; VStr sq]))) = VPtr (Some (VStruct [VStr (to_utf8 sp); VStr (to_utf8 sq)]))).
      { rewrite (back_ptr_struct (TRef "CommonCertificateExtension") fields_CommonCertificateExtension _ eq_refl eq_refl). destruct sq; reflexivity. }
      rewrite J in B. cbn [back_choice] in B. destruct (String.eqb_spec (to_utf8 sp) "") as [Z|Z]; [discriminate B|].
      injection B as B1 B2. split; [|split; [|reflexivity]].
      * exists sp, (VStr sq). split; [reflexivity|]. congruence.
      * eapply Sa; [exact E|]. rewrite J, B1, B2. reflexivity.
    + pose proof (nil_nonnil _ _ Wa Na) as ->. destruct (nonnil b) eqn:Nb.
      * right. split; [reflexivity|]. split; [eapply points_nonnil; eassumption|]. eapply Sb; [exact E|].
        destruct (points_nonnil _ _ Wb Nb) as (x & ->). cbn [back_choice] in B. congruence.
      * rewrite (nil_nonnil _ _ Wb Nb) in B. discriminate B.
  - unfold fields_AsserterChoice in W, S. destruct vs as [|a [|b [|c [|? vs]]]]; cbn [zip_all f_ty] in W, S; try tauto.
    change (losses [a; b; c] fields_AsserterChoice) with [lossless (TPtr (TRef "OrganizationalEntity")) a; lossless (TPtr (TRef "OrganizationalContact")) b; lossless (TPtr (TRef "BOMReference")) c].
    change (backs [a; b; c] fields_AsserterChoice) with [jback (TPtr (TRef "OrganizationalEntity")) a; jback (TPtr (TRef "OrganizationalContact")) b; jback (TPtr (TRef "BOMReference")) c] in B.
    change (encs [a; b; c] fields_AsserterChoice) with [fun esc => jenc esc (TPtr (TRef "OrganizationalEntity")) a; fun esc => jenc esc (TPtr (TRef "OrganizationalContact")) b; fun esc => jenc esc (TPtr (TRef "BOMReference")) c] in E.
    destruct S as (Sa & Sb & Sc & _), W as (Wa & Wb & Wc & _). cbn [marshal] in E. cbn [choice_lossless]. cbn [back_choice] in B.
    destruct (nonnil a) eqn:Na.
    + left. injection B as B1 B2 B3. apply bind_ok in E as (o1 & E & _). split; [eapply Sa; eassumption|]. split; symmetry; assumption.
    + right. pose proof (nil_nonnil _ _ Wa Na) as ->. destruct (nonnil b) eqn:Nb.
      * left. injection B as B1 B2. apply bind_ok in E as (o1 & E & _). split; [reflexivity|]. split; [eapply Sb; eassumption|]. symmetry; assumption.
      * right. split; [reflexivity|]. split; [eapply nil_nonnil; eassumption|]. injection B as _ B. destruct (nonnil c) eqn:Nc.
        -- apply bind_ok in E as (o1 & E & _). eapply Sc; eassumption.
        -- rewrite (nil_nonnil _ _ Wc Nc). exact I.
  - exact (ikev2_kept (hd (mkField "" TStr "" false) fields_IKEv2Auth) (tl fields_IKEv2Auth) vs o eq_refl W S E B).
  - exact (ikev2_kept (hd (mkField "" TStr "" false) fields_IKEv2Enc) (tl fields_IKEv2Enc) vs o eq_refl W S E B).
  - exact (ikev2_kept (hd (mkField "" TStr "" false) fields_IKEv2Integ) (tl fields_IKEv2Integ) vs o eq_refl W S E B).
  - exact (ikev2_kept (hd (mkField "" TStr "" false) fields_IKEv2Ke) (tl fields_IKEv2Ke) vs o eq_refl W S E B).
  - exact (ikev2_kept (hd (mkField "" TStr "" false) fields_IKEv2Prf) (tl fields_IKEv2Prf) vs o eq_refl W S E B).
  - unfold fields_PatentChoice in W, S. fields2' vs a b W S.
    change (losses [a; b] fields_PatentChoice) with [lossless (TPtr (TRef "Patent")) a; lossless (TPtr (TRef "PatentFamily")) b].
    rewrite backs_patent in B. rewrite encs_patent, marshal_patent in E.
    destruct S as (Sa & Sb & _), W as (Wa & Wb & _). cbn [choice_lossless].
    destruct (nonnil a) eqn:Na.
    + destruct (points_nonnil _ _ Wa Na) as (x & ->). rewrite back_patent in B. injection B as B1 B2. left.
      split; [eexists; reflexivity|]. split; [eapply Sa; eassumption|symmetry; assumption].
    + pose proof (nil_nonnil _ _ Wa Na) as ->. destruct (nonnil b) eqn:Nb.
      * right. split; [reflexivity|]. destruct (points_nonnil _ _ Wb Nb) as (x & ->).
        destruct (wt_ptr _ _ Wb) as [Q|(x' & Q & Wx)]; [discriminate|]. injection Q as <-.
        destruct (wt_struct (TRef "PatentFamily") fields_PatentFamily x eq_refl Wx) as (ps & -> & Wp).
        pose proof (back_ptr_struct (TRef "PatentFamily") fields_PatentFamily ps eq_refl eq_refl) as J. rewrite J in B.
        unfold fields_PatentFamily in Wp. destruct ps as [|p1 [|p2 [|p3 [|p4 [|p5 [|? ps]]]]]]; cbn [zip_all f_ty] in Wp; try tauto. destruct Wp as (_ & W2 & _).
        destruct (wt_str p2 W2) as (s2 & ->).
        destruct (backs_family p1 s2 p3 p4 p5) as (b1 & b3 & b4 & b5 & Eb). rewrite Eb in *.
        destruct (family_fields p1 (VStr s2) p3 p4 p5 b1 (VStr (to_utf8 s2)) b3 b4 b5) as (x1 & x3 & x4 & x5 & Ef). rewrite Ef in *.
        rewrite back_family in B. destruct (String.eqb_spec (to_utf8 s2) "") as [Z|Z]; [discriminate B|].
        injection B as -> B2 -> -> ->. split.
        -- exists p1, s2, p3, p4, p5. split; [reflexivity|]. congruence.
        -- eapply Sb; [exact E|]. rewrite J, B2. reflexivity.
      * rewrite (nil_nonnil _ _ Wb Nb) in B. discriminate B.
Qed.

Lemma kept_lossless v : forall t, ok_ty t = true -> wt t v -> kept t v.
Proof.
  induction v as [s|z|b|f| |x IH| |l IH|vs IH] using val_induction; intros t K W esc o E B; try exact I.
  - cbn [jback] in B. apply utf8_iff. congruence.
  - cbn [wt] in W. destruct (kind_of t) as [| | | |t'| | |] eqn:Kt; try contradiction.
    destruct (kind_ptr t t' K Kt) as (-> & K').
    change (jback (TPtr t') (VPtr (Some x))) with (if nulls t' x then VPtr None else VPtr (Some (jback t' x))) in B.
    destruct (nulls t' x) eqn:N; [discriminate|]. injection B as B. split; [exact N|]. eapply IH; try eassumption.
  - cbn [wt] in W. destruct (kind_of t) as [| | | | |t'| |] eqn:Kt; try contradiction.
    assert (Et : elem_ty t = t') by (unfold elem_ty; rewrite Kt; reflexivity).
    rewrite jenc_slice in E. cbn [lossless jback] in *. rewrite Et in *. injection B as B. apply bind_ok in E as (os & E & _).
    assert (K' : ok_ty t' = true) by (apply elem_ok_ok, (slice_ok t t' K Kt)). clear -IH W E B K'.
    revert os E W B. induction IH as [|x l Hx _ IHl]; intros os E W B; [exact I|].
    cbn [enc_elements] in E. apply bind_ok in E as (o1 & E1 & E). apply bind_ok in E as (os' & E2 & _).
    destruct W as (W1 & W2). injection B as B1 B2. split; [eapply Hx; eassumption|eapply IHl; eassumption].
  - rewrite jback_struct in B. rewrite lossless_struct. rewrite jenc_struct in E. injection B as B.
    cbn [wt] in W. destruct (kind_of t) as [| | | | | |fs|] eqn:Kt; try contradiction.
    rewrite (fields_of_kind t fs Kt) in *.
    assert (S : zip_all (fun f x => kept (f_ty f) x) vs fs).
    { pose proof (struct_ok t fs Kt) as O. clear -IH W O. revert fs W O. induction IH as [|x l Hx _ IHl]; intros [|f fs] W O; cbn in *; auto.
      apply andb_prop in O as (O1 & O2). destruct W as (W1 & W2). split; [apply Hx; assumption|apply IHl; assumption]. }
    destruct (hook_cases t) as [H|[->|(h & fs' & H)]]; [|discriminate Kt|].
    + rewrite H in *. apply bind_ok in E as (ms & E & _). eapply fields_kept; eassumption.
    + pose proof (hooked_kind _ _ _ H) as Kh. rewrite Kh in Kt. injection Kt as <-.
      assert (E' : scanned (marshal h fs' vs (encs vs fs')) = Ok o) by (rewrite (hooked_marshal _ _ _ H) in E; destruct H; exact E).
      unfold scanned in E'. apply bind_ok in E' as (o' & E1 & _). rewrite (hooked_marshal _ _ _ H) in *.
      eapply choice_kept; eassumption.
Qed.
