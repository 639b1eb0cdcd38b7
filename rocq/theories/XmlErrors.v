(** When the XML encoder fails. *)
From Verif Require Import Base Types Univ TypeTable Wt ReifyBase Reify ReifyFacts Consts JsonModel JsonProofs JsonHooks XmlModel XmlBack XmlTable XmlSpec XmlProofs XmlPairs XmlStructs XmlRound XmlLossProofs XmlOffence.
Local Open Scope string_scope.

Definition okr (r : xout) : Prop := exists els, r = Ok els.
Definition fine (t : ty) (v : val) : Prop := forall t' v', xwritten t v t' v' -> ~ xoffence t' v'.
Definition fine_part (p : ty * val) : Prop := fine (fst p) (snd p).
Lemma fine_step t v : fine t v <-> ~ xoffence t v /\ Forall fine_part (xparts t v).
Proof.
  split.
  - intros F. split; [apply F, xwritten_here|]. apply Forall_forall. intros (t1 & v1) I t2 v2 W. apply F. eapply xwritten_part; eassumption.
  - intros (O & P) t' v' W. destruct W as [|t1 v1 t2 v2 I W]; [exact O|]. rewrite Forall_forall in P. exact (P _ I _ _ W).
Qed.

Lemma okr_ok els : okr (Ok els) <-> True.
Proof. split; [trivial|]. intros _. exists els. reflexivity. Qed.
Lemma okr_err e : okr (Err e) <-> False.
Proof. split; [intros (x & E); discriminate|contradiction]. Qed.
Lemma okr_map r (g : list xml -> list xml) : okr (bind r (fun x => Ok (g x))) <-> okr r.
Proof. destruct r; cbn; rewrite ?okr_ok, ?okr_err; reflexivity. Qed.
Lemma okr_bind r f (Q : Prop) : (forall x, okr (f x) <-> Q) -> okr (bind r f) <-> okr r /\ Q.
Proof. intros H. destruct r as [x|e]; cbn; [rewrite H, okr_ok|rewrite !okr_err]; tauto. Qed.
Lemma okr_within name r : okr (within name r) <-> okr r.
Proof. unfold within. destruct r; cbn; rewrite ?okr_ok, ?okr_err; reflexivity. Qed.
Lemma okr_concat {A} (f : A -> xout) l : okr (concat_all f l) <-> Forall (fun x => okr (f x)) l.
Proof.
  induction l as [|x l IH]; cbn [concat_all]; [rewrite okr_ok; split; auto|]. rewrite (okr_bind _ _ (Forall (fun x => okr (f x)) l)).
  - rewrite Forall_cons_iff. reflexivity.
  - intros a. rewrite <- IH. destruct (concat_all f l); cbn; rewrite ?okr_ok, ?okr_err; reflexivity.
Qed.

Lemma empty_fine t v : wt t v -> empty_value v = true -> fine t v.
Proof.
  intros W E. apply fine_step. split.
  - intros O. destruct O; try discriminate E; destruct l; try discriminate E; contradiction.
  - assert (X : xparts t v = []).
    { destruct v as [| | | |[x|]|[[|x l]|]|]; try discriminate E; unfold xparts; destruct (marshaler t); reflexivity. }
    rewrite X. constructor.
Qed.
Definition decides (v : val) : Prop := forall t omit name, wt t v -> okr (nenc (annotate v) t omit name) <-> fine t v.
Lemma checked_decides v t omit name : decides v -> wt t v -> okr (enc_checked (annotate v) t omit name) <-> fine t v.
Proof.
  intros D W. unfold enc_checked. rewrite nval_annotate. destruct (omit && empty_value v)%bool eqn:E.
  - rewrite okr_ok. apply andb_prop in E as (_ & E). split; auto. intros _. apply empty_fine; assumption.
  - apply D, W.
Qed.
Lemma field_decides f v : decides v -> wt (f_ty f) v -> okr (enc_field f (annotate v)) <-> Forall fine_part (field_parts [f] [v]).
Proof.
  intros D W. unfold enc_field. cbn [field_parts]. destruct (xml_info f) as [[[] parents name omit]|]; rewrite ?okr_ok; try solve [split; auto].
  rewrite nval_annotate. rewrite Forall_cons_iff. unfold fine_part at 1. cbn [fst snd].
  assert (N : Forall fine_part [] <-> True) by (split; [trivial|constructor]). rewrite N.
  destruct (match v with VPtr None => true | _ => false end) eqn:E.
  - destruct v as [| | | |[x|]| |]; try discriminate. rewrite okr_ok. split; auto. intros _. split; [|trivial]. apply empty_fine; [exact W|reflexivity].
  - assert (G : okr (bind (enc_checked (annotate v) (f_ty f) omit name) (fun ks => Ok (wrap parents ks))) <-> fine (f_ty f) v /\ True).
    { rewrite okr_map, checked_decides by assumption. tauto. }
    destruct v as [| | | |[x|]| |]; try discriminate; exact G.
Qed.
Lemma field_parts_cons f fs v vs : field_parts (f :: fs) (v :: vs) = (field_parts [f] [v] ++ field_parts fs vs)%list.
Proof. cbn [field_parts]. destruct (xml_info f) as [[[] ? ? ?]|]; reflexivity. Qed.
Lemma fields_decide fs : forall vs, list_all (everywhere decides) vs -> zip_all (fun f x => wt (f_ty f) x) vs fs ->
  okr (enc_fields fs (map annotate vs)) <-> Forall fine_part (field_parts fs vs).
Proof.
  induction fs as [|f fs IH]; intros [|v vs] E W; cbn [zip_all] in W; try contradiction; [cbn; rewrite okr_ok; split; auto|].
  destruct W as (W & Ws). destruct E as (E & Es). rewrite field_parts_cons, Forall_app. cbn [map enc_fields].
  rewrite (okr_bind _ _ (okr (enc_fields fs (map annotate vs)))).
  - rewrite field_decides by (auto; eapply everywhere_here, E). rewrite IH by assumption. reflexivity.
  - intros a. destruct (enc_fields fs (map annotate vs)); cbn; rewrite ?okr_ok, ?okr_err; reflexivity.
Qed.
Lemma struct_decides fs vs name : list_all (everywhere decides) vs -> zip_all (fun f x => wt (f_ty f) x) vs fs ->
  okr (enc_struct fs (map annotate vs) name) <-> Forall fine_part (field_parts fs vs).
Proof.
  intros E W. unfold enc_struct. rewrite <- fields_decide by assumption. destruct (enc_fields fs (map annotate vs)); cbn; rewrite ?okr_ok, ?okr_err; reflexivity.
Qed.

(** ** The methods *)
Definition settles (t : ty) (m : method) (fs : list field) (vs : list val) : Prop := forall name,
  okr (marshal m fs (VStruct vs) (map annotate vs) name) <-> ~ xoffence t (VStruct vs) /\ Forall fine_part (method_parts m fs (VStruct vs)).
Ltac opened vs B W :=
  lazymatch type of W with zip_all _ _ ?fs => unfold fs in W end;
  repeat (let v := fresh "v" in destruct vs as [|v vs]; [solve [misfit W]|]);
  destruct vs as [|? ?]; [|misfit W];
  cbn [list_all zip_all f_ty] in B, W;
  repeat match goal with H : _ /\ _ |- _ => destruct H end.
Lemma fine_nil t v : fine t v -> True. Proof. trivial. Qed.
Lemma one_part t v : Forall fine_part [(t, v)] <-> fine t v.
Proof. rewrite Forall_cons_iff. unfold fine_part. cbn. split; [tauto|]. intros F. split; [exact F|constructor]. Qed.
Lemma no_part : Forall fine_part [] <-> True.
Proof. split; [trivial|constructor]. Qed.
Lemma nil_fine t : fine (TPtr t) (VPtr None).
Proof. apply empty_fine; [exact I|reflexivity]. Qed.
Lemma set_annotate v : set (annotate v) = nonnil v.
Proof. unfold set. rewrite nval_annotate. reflexivity. Qed.
Lemma filled_annotate v : filled (annotate v) = nonempty v.
Proof. unfold filled. rewrite nval_annotate. reflexivity. Qed.
Lemma some_iff t v : wt (TPtr t) v -> nonnil v = true <-> is_some v.
Proof. intros W. destruct (ptr_case _ _ W) as [->|(y & -> & _)]; cbn; unfold is_some; split; try discriminate; eauto. intros (x & E). discriminate. Qed.
Lemma nonnil_false t v : wt (TPtr t) v -> nonnil v = false -> v = VPtr None.
Proof. intros W. destruct (ptr_case _ _ W) as [->|(y & -> & _)]; cbn; [reflexivity|discriminate]. Qed.

Lemma str_fine v : wt TStr v -> fine TStr v.
Proof. intros W. apply fine_step. destruct (str_case _ W) as (s & ->). split; [intros O; inversion O|constructor]. Qed.
Definition strings_only (fs : list field) : bool := forallb (fun f => match f_ty f with TStr => true | _ => false end) fs.
Lemma strings_ok fs vs name : strings_only fs = true -> list_all (everywhere decides) vs -> zip_all (fun f x => wt (f_ty f) x) vs fs -> okr (enc_struct fs (map annotate vs) name).
Proof.
  intros S E W. apply struct_decides; [exact E|exact W|]. clear E name. revert vs W. induction fs as [|f fs IH]; intros [|v vs] W; cbn [zip_all] in W; try contradiction; [constructor|].
  apply andb_prop in S as (Sf & S). destruct W as (Wf & W). rewrite field_parts_cons, Forall_app. split; [|apply IH; assumption].
  destruct (f_ty f) eqn:T; try discriminate. cbn [field_parts]. rewrite T. destruct (xml_info f) as [[[] ? ? ?]|]; try constructor; [|constructor]. apply str_fine, Wf.
Qed.

Lemma settles_plain t m fs vs : method_parts m fs (VStruct vs) = [] -> (forall name, okr (marshal m fs (VStruct vs) (map annotate vs) name)) -> ~ xoffence t (VStruct vs) -> settles t m fs vs.
Proof. intros P O N name. rewrite P, no_part. split; [auto|]. intros _. apply O. Qed.
Lemma settles_dataset vs : list_all (everywhere decides) vs -> zip_all (fun f x => wt (f_ty f) x) vs fields_MLDatasetChoice -> settles (TRef "MLDatasetChoice") MDataset fields_MLDatasetChoice vs.
Proof.
  intros B W. opened vs B W. rename v into ref, v0 into data. intros name. cbn [map marshal method_parts]. rewrite filled_annotate, set_annotate.
  assert (N : ~ xoffence (TRef "MLDatasetChoice") (VStruct [ref; data])) by (intros O; inversion O).
  destruct (nonempty ref).
  - rewrite no_part. split; [auto|]. intros _. apply (strings_ok fields_mlDatasetChoiceRefXML [ref]); [reflexivity|cbn; auto|cbn; auto].
  - rewrite one_part. destruct (nonnil data) eqn:E.
    + rewrite (everywhere_here _ _ H3 _ false name H0). tauto.
    + apply nonnil_false with (1 := H0) in E. subst data. rewrite okr_ok. split; [|trivial]. intros _. split; [exact N|]. apply nil_fine.
Qed.

Ltac unset := repeat match goal with
  | W : wt (TPtr _) ?x, E : nonnil ?x = false |- _ => apply (nonnil_false _ _ W) in E; subst x
  end.
Lemma behind_struct t fs v : kind_of t = KStruct fs -> wt (TPtr t) v -> nonnil v = true -> everywhere decides v ->
  exists vs, v = VPtr (Some (VStruct vs)) /\ pointee (annotate v) = map annotate vs /\ zip_all (fun f x => wt (f_ty f) x) vs fs /\ list_all (everywhere decides) vs.
Proof.
  intros K W N E. destruct (ptr_case _ _ W) as [->|(y & -> & Wy)]; [discriminate|]. destruct (wt_struct _ _ _ K Wy) as (vs & -> & Z).
  exists vs. split; [reflexivity|]. split; [reflexivity|]. split; [exact Z|]. apply everywhere_below in E. cbn [below] in E. apply everywhere_below in E. exact E.
Qed.
Lemma same_types fs fs' : map f_ty fs = map f_ty fs' -> forall vs, zip_all (fun f x => wt (f_ty f) x) vs fs -> zip_all (fun f x => wt (f_ty f) x) vs fs'.
Proof.
  revert fs'. induction fs as [|f fs IH]; intros [|g fs'] E [|v vs] Z; try discriminate; cbn [zip_all] in *; try contradiction; trivial.
  injection E as Ef E. destruct Z as (Zf & Z). rewrite <- Ef. split; [exact Zf|]. eapply IH; eassumption.
Qed.
Lemma settles_state vs : list_all (everywhere decides) vs -> zip_all (fun f x => wt (f_ty f) x) vs fields_CertificateState -> settles (TRef "CertificateState") MState fields_CertificateState vs.
Proof.
  intros B W. opened vs B W. rename v into a, v0 into b. intros name. cbn [map marshal method_parts]. rewrite !set_annotate, no_part.
  assert (N : ~ xoffence (TRef "CertificateState") (VStruct [a; b]) <-> (nonnil a && nonnil b)%bool = false).
  { rewrite <- Bool.not_true_iff_false, Bool.andb_true_iff. rewrite (some_iff _ a H), (some_iff _ b H0). split; intros N Q; apply N; [destruct Q; constructor; assumption|inversion Q; auto]. }
  rewrite N. destruct (nonnil a) eqn:Ea; [destruct (nonnil b) eqn:Eb|].
  - cbn [andb]. rewrite okr_err. split; [contradiction|intros (Q & _); discriminate].
  - cbn [andb]. destruct (behind_struct (TRef "PredefinedCertificateState") fields_PredefinedCertificateState a eq_refl H Ea H2) as (vs & -> & -> & Z & E). split; [auto|]. intros _. apply strings_ok; [reflexivity|exact E|eapply same_types; [|exact Z]; reflexivity].
  - cbn [andb]. split; [auto|]. intros _. destruct (nonnil b) eqn:Eb; [|eexists; reflexivity].
    destruct (behind_struct (TRef "CustomCertificateState") fields_CustomCertificateState b eq_refl H0 Eb H3) as (vs & -> & -> & Z & E). apply strings_ok; [reflexivity|exact E|eapply same_types; [|exact Z]; reflexivity].
Qed.
Lemma settles_extension vs : list_all (everywhere decides) vs -> zip_all (fun f x => wt (f_ty f) x) vs fields_CertificateExtension -> settles (TRef "CertificateExtension") MExtension fields_CertificateExtension vs.
Proof.
  intros B W. opened vs B W. rename v into a, v0 into b. intros name. cbn [map marshal method_parts]. rewrite !set_annotate, no_part.
  assert (N : ~ xoffence (TRef "CertificateExtension") (VStruct [a; b]) <-> (nonnil a && nonnil b)%bool = false).
  { rewrite <- Bool.not_true_iff_false, Bool.andb_true_iff. rewrite (some_iff _ a H), (some_iff _ b H0). split; intros N Q; apply N; [destruct Q; constructor; assumption|inversion Q; auto]. }
  rewrite N. destruct (nonnil a) eqn:Ea; [destruct (nonnil b) eqn:Eb|].
  - cbn [andb]. rewrite okr_err. split; [contradiction|intros (Q & _); discriminate].
  - cbn [andb]. destruct (behind_struct (TRef "CommonCertificateExtension") fields_CommonCertificateExtension a eq_refl H Ea H2) as (vs & -> & -> & Z & E). split; [auto|]. intros _. apply strings_ok; [reflexivity|exact E|eapply same_types; [|exact Z]; reflexivity].
  - cbn [andb]. split; [auto|]. intros _. destruct (nonnil b) eqn:Eb; [|eexists; reflexivity].
    destruct (behind_struct (TRef "CustomCertificateExtension") fields_CustomCertificateExtension b eq_refl H0 Eb H3) as (vs & -> & -> & Z & E). apply strings_ok; [reflexivity|exact E|eapply same_types; [|exact Z]; reflexivity].
Qed.
Lemma settles_asserter vs : list_all (everywhere decides) vs -> zip_all (fun f x => wt (f_ty f) x) vs fields_AsserterChoice -> settles (TRef "AsserterChoice") MAsserter fields_AsserterChoice vs.
Proof.
  intros B W. opened vs B W. rename v into org, v0 into ind, v1 into ref. intros name. cbn [map marshal method_parts]. rewrite !set_annotate.
  assert (N : ~ xoffence (TRef "AsserterChoice") (VStruct [org; ind; ref]) <-> (nonnil org && nonnil ind)%bool = false).
  { rewrite <- Bool.not_true_iff_false, Bool.andb_true_iff. rewrite (some_iff _ org H), (some_iff _ ind H0). split; intros N Q; apply N; [destruct Q; constructor; assumption|inversion Q; auto]. }
  rewrite N. destruct (nonnil org) eqn:Ea; [destruct (nonnil ind) eqn:Eb|]; cbn [andb].
  - rewrite okr_err. split; [contradiction|intros (Q & _); discriminate].
  - rewrite okr_within, one_part. rewrite (everywhere_here _ _ H3 _ false "organization" H). tauto.
  - rewrite one_part. destruct (nonnil ind) eqn:Eb.
    + rewrite okr_within. rewrite (everywhere_here _ _ H4 _ false "contact" H0). tauto.
    + unset. split; [intros _; split; [reflexivity|apply nil_fine]|]. intros _. destruct (nonnil ref) eqn:Er; [|eexists; reflexivity].
      rewrite okr_within. rewrite (everywhere_here _ _ H5 _ false "ref" H1). destruct (ptr_case _ _ H1) as [->|(y & -> & Wy)]; [discriminate|].
      apply fine_step. split; [intros O; inversion O|]. apply one_part. apply fine_step. destruct y as [s| | | |[x|]|[l|]|]; cbn in Wy; try discriminate; try contradiction.
      split; [intros O; inversion O|constructor].
Qed.
Lemma settles_ikev2 t fs ref rest : (forall v, ~ xoffence t v) -> list_all (everywhere decides) (ref :: rest) -> zip_all (fun f x => wt (f_ty f) x) (ref :: rest) fs -> settles t MIKEv2 fs (ref :: rest).
Proof.
  intros N B W name. cbn [map marshal method_parts]. rewrite filled_annotate. destruct (nonempty ref).
  - rewrite okr_ok, no_part. split; auto.
  - change (annotate ref :: map annotate rest) with (map annotate (ref :: rest)). rewrite struct_decides by assumption. split; [auto|tauto].
Qed.
Lemma settles_license vs : list_all (everywhere decides) vs -> zip_all (fun f x => wt (f_ty f) x) vs fields_License -> settles (TRef "License") MLicense fields_License vs.
Proof.
  intros B W. assert (B' := B). assert (W' := W). unfold fields_License in W'. destruct vs as [|ref [|id [|lname rest]]]; try (exfalso; clear - W'; cbn in W'; tauto).
  cbn [zip_all f_ty] in W'. destruct W' as (_ & Wi & Wn & _). destruct (str_case _ Wi) as (i & ->). destruct (str_case _ Wn) as (n & ->). intros name.
  cbn [map marshal method_parts]. rewrite !filled_annotate. assert (Q : forall s, nonempty (VStr s) = negb (String.eqb s "")) by (intros []; reflexivity). rewrite !Q. clear Q.
  assert (N : xoffence (TRef "License") (VStruct (ref :: VStr i :: VStr n :: rest)) <-> (i <> "" /\ n <> "") \/ (i = "" /\ n = "")).
  { split; [intros O; inversion O; auto|]. intros [(A & C)|(-> & ->)]; [apply xo_license_both; assumption|apply xo_license_none]. }
  rewrite N. change (annotate ref :: annotate (VStr i) :: annotate (VStr n) :: map annotate rest) with (map annotate (ref :: VStr i :: VStr n :: rest)).
  destruct (String.eqb_spec i "") as [->|Ni]; destruct (String.eqb_spec n "") as [->|Nn]; cbn [negb orb andb]; rewrite ?okr_err.
  - split; [contradiction|]. intros (Q & _). apply Q. auto.
  - rewrite struct_decides by assumption. split; [|tauto]. intros F. split; [|exact F]. intros [(A & C)|(A & C)]; congruence.
  - rewrite struct_decides by assumption. split; [|tauto]. intros F. split; [|exact F]. intros [(A & C)|(A & C)]; congruence.
  - split; [contradiction|]. intros (Q & _). apply Q. auto.
Qed.
Lemma settles_tools vs : list_all (everywhere decides) vs -> zip_all (fun f x => wt (f_ty f) x) vs fields_ToolsChoice -> settles (TRef "ToolsChoice") MTools fields_ToolsChoice vs.
Proof.
  intros B W. opened vs B W. rename v into tools, v0 into comps, v1 into servs. intros name. cbn [map marshal method_parts]. rewrite !set_annotate.
  assert (N : ~ xoffence (TRef "ToolsChoice") (VStruct [tools; comps; servs]) <-> (nonnil tools && (nonnil comps || nonnil servs))%bool = false).
  { rewrite <- Bool.not_true_iff_false, Bool.andb_true_iff, Bool.orb_true_iff. rewrite (some_iff _ tools H), (some_iff _ comps H0), (some_iff _ servs H1).
    split; intros N Q; apply N; [destruct Q; constructor; assumption|inversion Q; auto]. }
  rewrite N. clear N.
  change [annotate tools; nil_node; nil_node] with (map annotate [tools; VPtr None; VPtr None]).
  change [nil_node; annotate comps; annotate servs] with (map annotate [VPtr None; comps; servs]).
  assert (D : everywhere decides (VPtr None)).
  { apply everywhere_intro; [|exact I]. intros t omit nm Wt. split; [|intros _; eexists; reflexivity]. intros _. apply empty_fine; [exact Wt|reflexivity]. }
  assert (Z : forall a b c, wt (TPtr (TSlice (TRef "Tool"))) a -> wt (TPtr (TSlice (TRef "Component"))) b -> wt (TPtr (TSlice (TRef "Service"))) c ->
    zip_all (fun f x => wt (f_ty f) x) [a; b; c] fields_toolsChoiceMarshalXML).
  { intros. cbn. auto. }
  destruct (nonnil tools) eqn:Et.
  - destruct (nonnil comps || nonnil servs)%bool; cbn [andb].
    + rewrite okr_err. split; [contradiction|intros (Q & _); discriminate].
    + rewrite struct_decides; [|cbn; auto|apply Z; auto; exact I]. rewrite one_part.
      change (field_parts fields_toolsChoiceMarshalXML [tools; VPtr None; VPtr None]) with
        [(TPtr (TSlice (TRef "Tool")), tools); (TPtr (TSlice (TRef "Component")), VPtr None); (TPtr (TSlice (TRef "Service")), VPtr None)].
      rewrite !Forall_cons_iff, no_part. unfold fine_part. cbn [fst snd]. split; [tauto|]. intros (_ & F). repeat split; auto; apply nil_fine.
  - unset. cbn [andb].
    destruct (nonnil comps || nonnil servs)%bool eqn:E.
    + rewrite struct_decides; [|cbn; auto|apply Z; auto; exact I].
      change (field_parts fields_toolsChoiceMarshalXML [VPtr None; comps; servs]) with
        [(TPtr (TSlice (TRef "Tool")), VPtr None); (TPtr (TSlice (TRef "Component")), comps); (TPtr (TSlice (TRef "Service")), servs)].
      rewrite !Forall_cons_iff, no_part. unfold fine_part. cbn [fst snd]. split; [tauto|]. intros (_ & F). repeat split; try tauto; apply nil_fine.
    + apply Bool.orb_false_iff in E as (E1 & E2). unset. rewrite okr_ok. split; [|trivial]. intros _. split; [reflexivity|].
      repeat constructor; unfold fine_part; cbn [fst snd]; apply nil_fine.
Qed.
Lemma settles_evidence vs : list_all (everywhere decides) vs -> zip_all (fun f x => wt (f_ty f) x) vs fields_Evidence -> settles (TRef "Evidence") MEvidence fields_Evidence vs.
Proof.
  intros B W. opened vs B W. rename v into identity, v0 into occ, v1 into stack, v2 into lics, v3 into copy. intros name. cbn [map marshal method_parts]. rewrite !set_annotate.
  assert (N : ~ xoffence (TRef "Evidence") (VStruct [identity; occ; stack; lics; copy])) by (intros O; inversion O).
  set (r1 := match pointee (annotate identity) with [one; many] => _ | _ => _ end).
  assert (I1 : okr r1 <-> Forall fine_part (identity_parts identity)).
  { subst r1. destruct (ptr_case _ _ H) as [->|(y & -> & Wy)]; [change (okr (Ok []) <-> Forall fine_part []); rewrite okr_ok, no_part; reflexivity|].
    destruct (wt_struct (TRef "EvidenceIdentityChoice") _ _ eq_refl Wy) as (vs & -> & Z). apply everywhere_below in H5. cbn [below] in H5. apply everywhere_below in H5. cbn [below] in H5. rename H5 into Bi. 
    opened vs Bi Z. rename v into one, v0 into many. change (pointee (annotate (VPtr (Some (VStruct [one; many]))))) with [annotate one; annotate many]. cbv iota beta. cbn [identity_parts].
    rewrite !set_annotate. destruct (nonnil many) eqn:Em.
    - rewrite one_part. match goal with D : everywhere decides many |- _ => apply (everywhere_here _ _ D); assumption end.
    - rewrite one_part. destruct (nonnil one) eqn:Eo; [match goal with D : everywhere decides one |- _ => apply (everywhere_here _ _ D); assumption end|]. unset. rewrite okr_ok. split; [|trivial]. intros _. apply nil_fine. }
  set (r2 := enc_fields (tl fields_EvidenceMarshalXML) _).
  set (rest := [(TPtr (TSlice (TRef "EvidenceOccurrence")), occ); _; _; _]).
  assert (I2 : okr r2 <-> Forall fine_part rest).
  { exact (fields_decide (tl fields_EvidenceMarshalXML) [occ; stack; lics; copy] ltac:(cbn; auto) ltac:(cbn; auto)). }
  rewrite Forall_app, <- I1, <- I2. clearbody r1 r2.
  destruct (_ || _)%bool eqn:E.
  - rewrite (okr_bind _ _ (okr r2)); [tauto|]. intros x. destruct r2; cbn; rewrite ?okr_ok, ?okr_err; reflexivity.
  - rewrite !Bool.orb_false_iff in E. destruct E as ((((E1 & E2) & E3) & E4) & E5). unset. rewrite okr_ok. split; [|trivial]. intros _. split; [exact N|].
    rewrite I1, I2. split; [constructor|]. subst rest. repeat constructor; unfold fine_part; cbn [fst snd]; apply nil_fine.
Qed.
Lemma settles_data vs : list_all (everywhere decides) vs -> zip_all (fun f x => wt (f_ty f) x) vs fields_DataClassification -> settles (TRef "DataClassification") MData fields_DataClassification vs.
Proof.
  intros B W. opened vs B W. intros name. cbn [map marshal method_parts]. rewrite set_annotate, one_part.
  match goal with |- okr (bind ?r ?f) <-> _ => assert (K : okr (bind r f) <-> okr r) by (destruct r; cbn [bind]; rewrite ?okr_ok, ?okr_err; reflexivity); rewrite K; clear K end.
  assert (N : forall v, ~ xoffence (TRef "DataClassification") v) by (intros u O; inversion O).
  destruct (nonnil v3) eqn:E.
  - match goal with W : wt (TPtr (TRef "DataGovernance")) v3, D : everywhere decides v3 |- _ => rewrite (everywhere_here _ _ D _ false "governance" W) end. split; [auto|tauto].
  - unset. rewrite okr_ok. split; [|trivial]. intros _. split; [apply N|apply nil_fine].
Qed.
Lemma flat_parts {A} (f : A -> list (ty * val)) l : Forall fine_part (flat_map f l) <-> Forall (fun x => Forall fine_part (f x)) l.
Proof. induction l as [|x l IH]; cbn [flat_map]; [split; auto|]. rewrite Forall_app, Forall_cons_iff, IH. reflexivity. Qed.
Lemma map_parts t l : Forall fine_part (map (fun x => (t, x)) l) <-> Forall (fine t) l.
Proof. rewrite Forall_map. reflexivity. Qed.
Lemma Forall_iff {A} (P Q : A -> Prop) l : (forall x, In x l -> P x <-> Q x) -> Forall P l <-> Forall Q l.
Proof. intros H. rewrite !Forall_forall. split; intros F x I; apply (H x I), F, I. Qed.
Lemma patent_settles x : everywhere decides x -> wt (TRef "PatentChoice") x -> okr (enc_patent (annotate x)) <-> Forall fine_part (patent_parts x).
Proof.
  intros E W. destruct (wt_struct (TRef "PatentChoice") _ _ eq_refl W) as (vs & -> & Z). apply everywhere_below in E. cbn [below] in E. opened vs E Z. rename v into a, v0 into b.
  change (nsubs (annotate (VStruct [a; b]))) with [annotate a; annotate b]. unfold enc_patent.
  change (nsubs (annotate (VStruct [a; b]))) with [annotate a; annotate b]. cbv iota beta. rewrite !set_annotate.
  match goal with W : wt _ a |- _ => destruct (ptr_case _ _ W) as [->|(y & -> & Wy)] end.
  - cbn [nonnil patent_parts]. rewrite one_part. destruct (nonnil b) eqn:Eb.
    + match goal with D : everywhere decides b |- _ => apply (everywhere_here _ _ D); assumption end.
    + unset. rewrite okr_ok. split; [|trivial]. intros _. apply nil_fine.
  - cbn [nonnil patent_parts]. rewrite one_part.
    match goal with D : everywhere decides (VPtr (Some y)) |- _ => apply everywhere_below in D; cbn [below] in D; exact (everywhere_here _ _ D (TRef "Patent") false "patent" Wy) end.
Qed.
Lemma list_shape t v : wt (TPtr (TSlice t)) v -> everywhere decides v -> pointee (annotate v) = map annotate (list_in v) /\ Forall (wt t) (list_in v) /\ Forall (everywhere decides) (list_in v) /\
  (nonnil v = false -> list_in v = []).
Proof.
  intros W E. destruct (ptr_case _ _ W) as [->|(y & -> & Wy)]; [repeat split; constructor|]. destruct (slice_case _ _ Wy) as [->|(l & -> & Wl)]; [repeat split; constructor|].
  apply everywhere_below in E. cbn [below] in E. apply everywhere_below in E. cbn [below] in E. apply list_all_Forall in E. cbn [list_in]. split; [reflexivity|]. split; [exact Wl|]. split; [exact E|discriminate].
Qed.
Lemma okr_if (b : bool) r : (b = false -> okr r) -> okr (if b then r else Ok []) <-> okr r.
Proof. intros H. destruct b; [reflexivity|]. rewrite okr_ok. split; auto. Qed.
Lemma settles_definitions vs : list_all (everywhere decides) vs -> zip_all (fun f x => wt (f_ty f) x) vs fields_Definitions -> settles (TRef "Definitions") MDefinitions fields_Definitions vs.
Proof.
  intros B W. opened vs B W. rename v into a, v0 into b. intros name. cbn [map marshal method_parts]. rewrite !set_annotate.
  destruct (list_shape (TRef "StandardDefinition") a) as (Pa & Wa & Da & Na); [assumption..|]. destruct (list_shape (TRef "PatentChoice") b) as (Pb & Wb & Db & Nb); [assumption..|].
  rewrite Pa, Pb, Forall_app, flat_parts, map_parts.
  assert (N : ~ xoffence (TRef "Definitions") (VStruct [a; b])) by (intros O; inversion O).
  assert (S1 : okr (if nonnil a then within "standards" (concat_all (fun s => nenc s (TRef "StandardDefinition") false "standard") (map annotate (list_in a))) else Ok []) <-> Forall (fine (TRef "StandardDefinition")) (list_in a)).
  { rewrite okr_if; rewrite okr_within, okr_concat, Forall_map; [|intros E; rewrite (Na E); constructor].
    apply Forall_iff. intros x I. rewrite Forall_forall in Wa, Da. apply (everywhere_here _ _ (Da x I)), Wa, I. }
  assert (S2 : okr (if nonnil b then within "patents" (concat_all enc_patent (map annotate (list_in b))) else Ok []) <-> Forall (fun x => Forall fine_part (patent_parts x)) (list_in b)).
  { rewrite okr_if; rewrite okr_within, okr_concat, Forall_map; [|intros E; rewrite (Nb E); constructor].
    apply Forall_iff. intros x I. rewrite Forall_forall in Wb, Db. apply patent_settles; [apply Db, I|apply Wb, I]. }
  rewrite <- S1, <- S2. set (r1 := if nonnil a then _ else _). set (r2 := if nonnil b then _ else _). clearbody r1 r2.
  rewrite (okr_bind _ _ (okr r2)); [tauto|]. intros x. destruct r2; cbn [bind]; rewrite ?okr_ok, ?okr_err; reflexivity.
Qed.

(** Lists of choices *)
Definition both_set (v : val) : Prop := match v with VStruct (a :: b :: _) => is_some a /\ nonempty b = true | _ => False end.
Lemma nonempty_str s : nonempty (VStr s) = true <-> s <> "".
Proof. destruct s; cbn; split; congruence. Qed.
Lemma environment_settles x : everywhere decides x -> wt (TRef "EnvironmentVariableChoice") x ->
  okr (enc_environment (annotate x)) <-> ~ both_set x /\ Forall fine_part (environment_parts x).
Proof.
  intros E W. destruct (wt_struct (TRef "EnvironmentVariableChoice") _ _ eq_refl W) as (vs & -> & Z). apply everywhere_below in E. cbn [below] in E. opened vs E Z. rename v into a, v0 into b.
  unfold enc_environment. change (nsubs (annotate (VStruct [a; b]))) with [annotate a; annotate b]. cbv iota beta. rewrite !set_annotate, filled_annotate. cbn [both_set environment_parts]. rewrite one_part.
  rewrite <- (some_iff (TRef "Property") a) by assumption.
  destruct (nonnil a) eqn:Ea; [destruct (nonempty b) eqn:Eb|]; cbn [andb].
  - rewrite okr_err. tauto.
  - match goal with D : everywhere decides a |- _ => rewrite (everywhere_here _ _ D (TPtr (TRef "Property")) false "environmentVar") by assumption end.
    split; [|tauto]. intros F. split; [|exact F]. intros (_ & Q). discriminate.
  - unset. split; [|intros _; destruct (nonempty b); eexists; reflexivity]. intros _. split; [intros (Q & _); discriminate|apply nil_fine].
Qed.
Lemma detail_settles x : everywhere decides x -> wt (TRef "LicenseExpressionDetail") x -> okr (enc_detail (annotate x)) <-> Forall fine_part (detail_parts x).
Proof.
  intros E W. destruct (wt_struct (TRef "LicenseExpressionDetail") _ _ eq_refl W) as (vs & -> & Z). apply everywhere_below in E. cbn [below] in E. opened vs E Z.
  change (enc_detail (annotate (VStruct [v; v0; v1; v2]))) with (enc_struct fields_licenseExpressionDetailXML (map annotate [v; v1; v2]) "details").
  rewrite struct_decides; [|cbn; auto|cbn; auto]. cbn [detail_parts]. change (field_parts fields_licenseExpressionDetailXML [v; v1; v2]) with [(TPtr (TRef "AttachedText"), v1); (TStr, v2)].
  rewrite one_part, !Forall_cons_iff, no_part. unfold fine_part. cbn [fst snd]. split; [tauto|]. intros F. split; [exact F|]. split; [apply str_fine; assumption|trivial].
Qed.
Lemma license_choice_settles x : everywhere decides x -> wt (TRef "LicenseChoice") x ->
  okr (enc_choice (annotate x)) <-> ~ both_set x /\ Forall fine_part (license_choice_parts x).
Proof.
  intros E W. destruct (wt_struct (TRef "LicenseChoice") _ _ eq_refl W) as (vs & -> & Z). apply everywhere_below in E. cbn [below] in E. opened vs E Z.
  rename v into license, v0 into expression, v1 into details.
  unfold enc_choice. change (nsubs (annotate (VStruct [license; expression; details; v2; v3; v4; v5]))) with (map annotate [license; expression; details; v2; v3; v4; v5]). cbn [map].
  cbv zeta. rewrite !set_annotate, filled_annotate. cbn [both_set].
  match goal with W : wt _ license |- _ => rewrite <- (some_iff _ license W); destruct (ptr_case _ _ W) as [->|(y & -> & Wy)] end.
  - assert (N : ~ (nonnil (VPtr None) = true /\ nonempty expression = true)) by (intros (Q & _); discriminate). cbn [nonnil andb].
    destruct (list_shape (TRef "LicenseExpressionDetail") details) as (Pd & Wd & Dd & Nd); [assumption..|].
    assert (Ps : license_choice_parts (VStruct [VPtr None; expression; details; v2; v3; v4; v5]) = if nonempty expression then flat_map detail_parts (list_in details) else []).
    { destruct details as [| | | |[[| | | | |[l|]|]|]| |]; cbn [license_choice_parts list_in flat_map]; try reflexivity; destruct (nonempty expression); reflexivity. }
    rewrite Ps. destruct (nonempty expression) eqn:Ee.
    + rewrite flat_parts. destruct (nonnil details) eqn:Ed.
      * rewrite Pd. match goal with |- okr (bind ?r ?f) <-> _ => assert (K : okr (bind r f) <-> okr r) by (destruct r; cbn [bind]; rewrite ?okr_ok, ?okr_err; reflexivity); rewrite K; clear K end.
        rewrite okr_concat, Forall_map.
        assert (Q : Forall (fun x => okr (enc_detail (annotate x))) (list_in details) <-> Forall (fun x => Forall fine_part (detail_parts x)) (list_in details)).
        { apply Forall_iff. intros x I. rewrite Forall_forall in Wd, Dd. apply detail_settles; [apply Dd, I|apply Wd, I]. }
        rewrite Q. split; [auto|tauto].
      * rewrite okr_ok, (Nd eq_refl). split; auto.
    + rewrite okr_ok, no_part. split; auto.
  - cbn [nonnil andb license_choice_parts]. rewrite one_part. destruct (nonempty expression).
    + rewrite okr_err. tauto.
    + match goal with D : everywhere decides (VPtr (Some y)) |- _ => apply everywhere_below in D; cbn [below] in D; pose proof (everywhere_here _ _ D (TRef "License") false "license" Wy) as K end.
      change (nenc (annotate (VPtr (Some y))) (TPtr (TRef "License")) false "license") with (nenc (annotate y) (TRef "License") false "license"). rewrite K. split; [|tauto].
      intros F. split; [|exact F]. intros (_ & Q). discriminate.
Qed.
Lemma within_list name (l : list node) r : okr (match l with [] => Ok [] | _ => within name r end) <-> match l with [] => True | _ => okr r end.
Proof. destruct l; [apply okr_ok|apply okr_within]. Qed.
Lemma list_settles t m enc parts l name : (forall x, everywhere decides x -> wt t x -> okr (enc (annotate x)) <-> ~ both_set x /\ Forall fine_part (parts x)) ->
  (forall ns, marshal m [] (VSlice (Some l)) ns name = match ns with [] => Ok [] | _ => within name (concat_all enc ns) end) ->
  Forall (everywhere decides) l -> Forall (wt t) l ->
  okr (marshal m [] (VSlice (Some l)) (map annotate l) name) <-> ~ (exists x, In x l /\ both_set x) /\ Forall fine_part (flat_map parts l).
Proof.
  intros H M D W. rewrite M, within_list, flat_parts.
  assert (K : okr (concat_all enc (map annotate l)) <-> ~ (exists x, In x l /\ both_set x) /\ Forall (fun x => Forall fine_part (parts x)) l).
  { rewrite okr_concat, Forall_map. transitivity (Forall (fun x => ~ both_set x /\ Forall fine_part (parts x)) l).
    - apply Forall_iff. intros x I. rewrite Forall_forall in W, D. apply H; auto.
    - rewrite !Forall_forall. split; [intros F; split; [intros (x & I & Q); exact (proj1 (F x I) Q)|intros x I; apply F, I]|].
      intros (N & F) x I. split; [|apply F, I]. intros Q. apply N. eauto. }
  rewrite <- K. destruct l as [|x l]; [|reflexivity]. cbn. rewrite okr_ok. reflexivity.
Qed.
Lemma choice_offence l : Forall (wt (TRef "LicenseChoice")) l -> xoffence (TRef "Licenses") (VSlice (Some l)) <-> exists x, In x l /\ both_set x.
Proof.
  intros W. rewrite Forall_forall in W. split.
  - intros O. inversion O as [| | | | | |l' a e rest I A B|]; subst. exists (VStruct (a :: VStr e :: rest)). split; [exact I|]. split; [exact A|]. apply nonempty_str, B.
  - intros (x & I & Q). specialize (W x I). destruct (wt_struct (TRef "LicenseChoice") _ _ eq_refl W) as (vs & -> & Z). unfold fields_LicenseChoice in Z.
    destruct vs as [|a [|e rest]]; try contradiction. cbn [zip_all f_ty] in Z. destruct Z as (_ & Ze & _). destruct (str_case _ Ze) as (s & ->). destruct Q as (Q1 & Q2).
    eapply xo_choice; [exact I|exact Q1|apply nonempty_str, Q2].
Qed.
Lemma environment_offence l : Forall (wt (TRef "EnvironmentVariableChoice")) l -> xoffence (TRef "EnvironmentVariables") (VSlice (Some l)) <-> exists x, In x l /\ both_set x.
Proof.
  intros W. rewrite Forall_forall in W. split.
  - intros O. inversion O as [| | | | | | |l' a e I A B]; subst. exists (VStruct [a; VStr e]). split; [exact I|]. split; [exact A|]. apply nonempty_str, B.
  - intros (x & I & Q). specialize (W x I). destruct (wt_struct (TRef "EnvironmentVariableChoice") _ _ eq_refl W) as (vs & -> & Z). unfold fields_EnvironmentVariableChoice in Z.
    destruct vs as [|a [|e [|u rest]]]; try contradiction; cbn [zip_all f_ty] in Z; [|tauto]. destruct Z as (_ & Ze & _). destruct (str_case _ Ze) as (s & ->). destruct Q as (Q1 & Q2).
    eapply xo_environment; [exact I|exact Q1|apply nonempty_str, Q2].
Qed.

(** ** All values *)
Lemma struct_method n m fs v : kind_of (TRef n) = KStruct fs -> marshaler (TRef n) = m -> m <> MNone -> below decides v ->
  (forall vs, list_all (everywhere decides) vs -> zip_all (fun f x => wt (f_ty f) x) vs fs -> settles (TRef n) m fs vs) ->
  forall omit name, wt (TRef n) v -> okr (nenc (annotate v) (TRef n) omit name) <-> fine (TRef n) v.
Proof.
  intros K M Nm B H omit name W. destruct (wt_struct _ _ _ K W) as (vs & -> & Z). specialize (H vs B Z name). rewrite fine_step.
  unfold xparts, fields_of. rewrite M, K. rewrite <- H. cbn [annotate nenc encode]. unfold fields_of. rewrite M, K. destruct m; try reflexivity. congruence.
Qed.
Lemma plain_decides v t omit name : below decides v -> marshaler t = MNone -> wt t v -> okr (nenc (annotate v) t omit name) <-> fine t v.
Proof.
  intros B M W. rewrite fine_step. assert (N : forall u, ~ xoffence t u) by (intros u O; destruct O; discriminate M).
  assert (N' : forall P, ~ xoffence t v /\ P <-> P) by (intros P; specialize (N v); tauto). rewrite N'. unfold xparts. rewrite M.
  destruct v as [s|z|b|f|[x|]|[l|]|vs]; cbn [annotate nenc encode method_parts]; rewrite ?M; try (rewrite okr_ok, no_part; reflexivity).
  - rewrite one_part. cbn [below] in B. cbn [wt] in W. unfold elem_ty. destruct (kind_of t) as [| | | |t'| | |]; try contradiction. apply (everywhere_here _ _ B), W.
  - cbn [below] in B. cbn [wt] in W. unfold elem_ty. destruct (kind_of t) as [| | | | |t'| |]; try contradiction. rewrite okr_concat, map_parts, Forall_map.
    apply list_all_Forall in B, W. apply Forall_iff. intros x I. rewrite Forall_forall in B, W. apply checked_decides; [apply everywhere_here, B, I|apply W, I].
  - cbn [concat_all]. rewrite okr_ok, no_part. reflexivity.
  - cbn [below] in B. cbn [wt] in W. unfold fields_of. destruct (kind_of t) as [| | | | | |fs|]; try contradiction. apply struct_decides; assumption.
Qed.
Lemma list_method n m t enc parts v : kind_of (TRef n) = KSlice t -> marshaler (TRef n) = m -> m <> MNone -> below decides v -> wt (TRef n) v ->
  (forall x, everywhere decides x -> wt t x -> okr (enc (annotate x)) <-> ~ both_set x /\ Forall fine_part (parts x)) ->
  (forall u ns name, marshal m [] u ns name = match ns with [] => Ok [] | _ => within name (concat_all enc ns) end) ->
  (forall l, method_parts m [] (VSlice (Some l)) = flat_map parts l) -> (forall fs, method_parts m fs (VSlice None) = []) ->
  (forall l, Forall (wt t) l -> xoffence (TRef n) (VSlice (Some l)) <-> exists x, In x l /\ both_set x) -> (~ xoffence (TRef n) (VSlice None)) ->
  forall omit name, okr (nenc (annotate v) (TRef n) omit name) <-> fine (TRef n) v.
Proof.
  intros K M Nm B W H E P P0 O O0 omit name. rewrite fine_step. destruct v as [| | | |[x|]|[l|]|]; try (exfalso; clear - W K; cbn [wt] in W; rewrite K in W; first [exact W|discriminate W]).
  - cbn [below] in B. apply list_all_Forall in B. assert (W' : Forall (wt t) l) by (cbn [wt] in W; rewrite K in W; apply list_all_Forall, W).
    rewrite (O _ W'). unfold xparts. rewrite M.
    assert (Q : nenc (annotate (VSlice (Some l))) (TRef n) omit name = marshal m [] (VSlice (Some l)) (map annotate l) name) by (cbn [annotate nenc encode]; unfold fields_of; rewrite K, M; clear - Nm E; destruct m; try reflexivity; congruence).
    rewrite Q. replace (match m with MNone => _ | _ => _ end) with (flat_map parts l) by (rewrite <- P; destruct m; try reflexivity; congruence).
    apply (list_settles t m enc parts l name H); [intros; apply E|assumption..].
  - unfold xparts. rewrite M, P0. assert (Q : nenc (annotate (VSlice None)) (TRef n) omit name = Ok []) by (cbn [annotate nenc encode]; unfold fields_of; rewrite K, M; clear - Nm E; destruct m; try (rewrite E; reflexivity); try reflexivity; congruence).
    rewrite Q, okr_ok, no_part. tauto.
Qed.
Lemma method_decides n m v : In (n, m) xml_methods -> below decides v -> wt (TRef n) v -> forall omit name, okr (nenc (annotate v) (TRef n) omit name) <-> fine (TRef n) v.
Proof.
  intros I B W omit name. unfold xml_methods in I. cbn [In] in I.
  repeat (destruct I as [I|I]; [injection I as <- <-|]); [..|destruct I].
  all: try (eapply struct_method; [reflexivity|reflexivity|discriminate|exact B| |exact W]; intros vs Bs Z;
    first [apply settles_dataset|apply settles_state|apply settles_extension|apply settles_asserter|apply settles_license|apply settles_tools|apply settles_evidence|apply settles_data|apply settles_definitions]; assumption).
  all: try (eapply struct_method; [reflexivity|reflexivity|discriminate|exact B| |exact W]; intros [|ref rest] Bs Z; [exfalso; exact Z|];
    apply settles_ikev2; [intros u O; inversion O|assumption..]).
  all: try (eapply list_method; [reflexivity|reflexivity|discriminate|exact B|exact W|first [apply environment_settles|apply license_choice_settles]|reflexivity|reflexivity|reflexivity|first [apply environment_offence|apply choice_offence]|intros O; inversion O]).
  all: try (eapply struct_method; [reflexivity|reflexivity|discriminate|exact B| |exact W]; intros vs Bs Z; apply settles_plain; [reflexivity| |intros O; inversion O]; intros nm;
    match type of Z with zip_all _ _ ?fs => unfold fs in Z end; destruct vs as [|a [|b [|c [|d vs]]]]; cbn in Z; try tauto; eexists; reflexivity).
  all: destruct v as [| | | |[x|]|[l|]|]; cbn in W; try discriminate; try contradiction; rewrite fine_step;
    (split; [intros _; split; [intros O; inversion O|apply no_part; exact I]|intros _; eexists; reflexivity]).
Qed.
Theorem all_decide v : everywhere decides v.
Proof.
  apply val_strong. clear v. intros v B t omit name W. destruct (marshaler t) eqn:M; [apply plain_decides; assumption|..].
  all: destruct t as [| | | | | | |n]; try discriminate M; unfold marshaler in M; destruct (assoc n xml_methods) as [m|] eqn:A; [|discriminate M]; apply (method_decides n m); [apply assoc_methods, A|assumption..].
Qed.
Theorem xml_fails_iff b : okr (bom_to_xml b) <-> fine (TRef "BOM") (reify_BOM b).
Proof. apply (everywhere_here _ _ (all_decide (reify_BOM b))), typed_BOM. Qed.
