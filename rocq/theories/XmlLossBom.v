(** What comes back has the type of what was written; the condition for BOMs. *)
From Verif Require Import Base Types Univ TypeTable Wt ReifyBase Reify ReifyFacts Consts Version JsonModel JsonProofs JsonHooks JsonDecode XmlModel XmlBack XmlTable XmlProofs XmlRound XmlNeat XmlLossless XmlLossProofs.
From Coq Require Import Lia.
Local Open Scope string_scope.

Definition typed (v : val) : Prop := forall t omit w, wt t v -> bback (back_of v) t omit = Some w -> wt t w.
Lemma no_bad : forallb (fun f => match kind_of (f_ty f) with KBad => false | _ => true end) struct_fields = true.
Proof. vm_compute. reflexivity. Qed.
Lemma zero_typed t fs f : kind_of t = KStruct fs -> In f fs -> wt (f_ty f) (zero_of (f_ty f)).
Proof.
  intros K I. apply fit_wt, fit_zero. pose proof no_bad as X. rewrite forallb_forall in X. assert (J : In f struct_fields).
  { apply kind_struct_in in K as (n & -> & Id). unfold struct_fields. apply in_flat_map. exists (n, DStruct fs). auto. }
  specialize (X f J). destruct (kind_of (f_ty f)); try discriminate. 
Qed.
Lemma bptr_typed t x : typed x -> wt (TPtr t) x -> wt (TPtr t) (bptr (back_of x) t).
Proof.
  intros T W. unfold bptr. destruct (bback (back_of x) (TPtr t) false) as [y|] eqn:E; [apply (T _ _ _ W E)|exact I].
Qed.
Lemma ptr_if_typed t l : Forall (wt t) l -> wt (TPtr (TSlice t)) (ptr_if l).
Proof. intros F. destruct l as [|x l]; [exact I|]. apply list_all_Forall in F. exact F. Qed.
Lemma somes_typed t (back : bnode -> option val) l : (forall x w, In x l -> wt t x -> back (back_of x) = Some w -> wt t w) -> Forall (wt t) l -> Forall (wt t) (somes back (map back_of l)).
Proof.
  intros H F. induction l as [|x l IH]; [constructor|]. cbn [map somes]. inversion F; subst. destruct (back (back_of x)) as [w|] eqn:E.
  - constructor; [apply (H x); [left; reflexivity|assumption|exact E]|]. apply IH; [|assumption]. intros y w' I. apply H. right. exact I.
  - apply IH; [|assumption]. intros y w' I. apply H. right. exact I.
Qed.
Lemma fields_typed t fs vs : kind_of t = KStruct fs -> list_all (everywhere typed) vs -> zip_all (fun f x => wt (f_ty f) x) vs fs -> zip_all (fun f x => wt (f_ty f) x) (back_fields fs (map back_of vs)) fs.
Proof.
  intros K B W.
  assert (C : forall f, In f fs -> is_chardata f = true -> f_ty f = TStr).
  { intros f I. pose proof chardata_str as X. rewrite forallb_forall in X. assert (J : In f struct_fields).
    { apply kind_struct_in in K as (n & -> & Id). unfold struct_fields. apply in_flat_map. exists (n, DStruct fs). auto. }
    specialize (X f J). intros D. rewrite D in X. destruct (f_ty f); try discriminate. reflexivity. }
  assert (Z : forall f, In f fs -> wt (f_ty f) (zero_of (f_ty f))) by (intros f I; apply (zero_typed t fs f K I)).
  assert (D : forall f v omit, In f fs -> everywhere typed v -> wt (f_ty f) v -> wt (f_ty f) (default (f_ty f) (checked_back (back_of v) (f_ty f) omit))).
  { intros f v omit I E Wv. unfold checked_back. destruct (omit && _)%bool; [apply Z, I|]. destruct (bback (back_of v) (f_ty f) omit) as [y|] eqn:Q; [|apply Z, I].
    apply (everywhere_here _ _ E _ _ _ Wv Q). }
  assert (G : forall gs ws, incl gs fs -> list_all (everywhere typed) ws -> zip_all (fun f x => wt (f_ty f) x) ws gs -> zip_all (fun f x => wt (f_ty f) x) (back_fields gs (map back_of ws)) gs).
  { clear B W vs. induction gs as [|g gs IH]; intros [|v ws] In_ B W; try contradiction; [exact I|]. destruct B as (B1 & B). destruct W as (W1 & W).
    cbn [map back_fields zip_all]. split; [|apply IH; auto; intros x J; apply In_; right; exact J].
    assert (Ig : In g fs) by (apply In_; left; reflexivity).
    unfold back_field. specialize (C g Ig). unfold is_chardata in C. destruct (xml_info g) as [[[] ps name omit]|]; [apply D; auto|rewrite (C eq_refl); reflexivity| |apply Z, Ig].
    destruct (String.eqb _ name); [apply D; auto|apply Z, Ig]. }
  apply G; auto. apply incl_refl.
Qed.
Ltac open_typed vs B W :=
  lazymatch type of W with zip_all _ _ ?fs => unfold fs in W end;
  repeat (let v := fresh "v" in destruct vs as [|v vs]; [solve [misfit W]|]);
  destruct vs as [|? ?]; [|misfit W];
  cbn [list_all zip_all f_ty] in B, W;
  repeat match goal with
         | H : _ /\ _ |- _ => destruct H
         | H : everywhere typed _ |- _ => apply everywhere_here in H
         end.
Ltac part := first [exact I|reflexivity|apply bptr_typed; assumption|assumption|apply fit_wt, fit_zero; discriminate].
Ltac parts := intros E; repeat match type of E with (if ?c then _ else _) = _ => destruct c end; try discriminate E; injection E as <-; cbn [zip_all f_ty]; repeat split; try part.
Lemma struct_typed n fs v : kind_of (TRef n) = KStruct fs -> marshaler (TRef n) <> MNone -> below typed v ->
  (forall vs w, list_all (everywhere typed) vs -> zip_all (fun f x => wt (f_ty f) x) vs fs ->
     back_method (marshaler (TRef n)) fs (VStruct vs) (map back_of vs) = Some w -> wt (TRef n) w) ->
  forall omit w, wt (TRef n) v -> bback (back_of v) (TRef n) omit = Some w -> wt (TRef n) w.
Proof.
  intros K M B H omit w W E. destruct (wt_struct _ _ _ K W) as (vs & -> & Wz). specialize (H vs w B Wz). apply H.
  cbn [back_of bback] in E. unfold back_value, fields_of in E. rewrite K in E. destruct (marshaler (TRef n)); try exact E. congruence.
Qed.
Lemma sub_typed v x : everywhere typed v -> match v with VPtr (Some y) => x = y | VSlice (Some l) | VStruct l => In x l | _ => False end -> everywhere typed x.
Proof.
  intros E I. apply everywhere_below in E. destruct v as [| | | |[y|]|[l|]|l]; try contradiction; cbn [below] in E; [subst; exact E| |];
    apply list_all_Forall in E; rewrite Forall_forall in E; apply E, I.
Qed.
Lemma behind_typed t d (back : bnode -> option val) : wt (TPtr (TSlice t)) d -> everywhere typed d -> (forall x w, everywhere typed x -> wt t x -> back (back_of x) = Some w -> wt t w) ->
  wt (TPtr (TSlice t)) (ptr_if (somes back (bpointee (back_of d)))).
Proof.
  intros W E H. destruct (ptr_case _ _ W) as [->|(y & -> & Wy)]; [exact I|]. destruct (slice_case _ _ Wy) as [->|(l & -> & Wl)]; [exact I|].
  apply ptr_if_typed. cbn [bpointee back_of bsubs]. apply somes_typed; [|exact Wl]. intros x w In_ Wx. apply H; [|exact Wx]. apply (sub_typed (VSlice (Some l))); [|exact In_]. apply (sub_typed _ _ E). reflexivity.
Qed.
Lemma patent_typed x w : everywhere typed x -> wt (TRef "PatentChoice") x -> back_patent (back_of x) = Some w -> wt (TRef "PatentChoice") w.
Proof.
  intros E W. destruct (wt_struct (TRef "PatentChoice") _ _ eq_refl W) as (vs & -> & Z). apply everywhere_below in E. cbn [below] in E. open_typed vs E Z.
  unfold back_patent. cbn [back_of bsubs map]. parts.
Qed.
Lemma environment_typed x w : everywhere typed x -> wt (TRef "EnvironmentVariableChoice") x -> back_environment (back_of x) = Some w -> wt (TRef "EnvironmentVariableChoice") w.
Proof.
  intros E W. destruct (wt_struct (TRef "EnvironmentVariableChoice") _ _ eq_refl W) as (vs & -> & Z). apply everywhere_below in E. cbn [below] in E. open_typed vs E Z.
  unfold back_environment. cbn [back_of bsubs map]. parts.
Qed.
Lemma detail_typed x w : everywhere typed x -> wt (TRef "LicenseExpressionDetail") x -> Some (back_detail (back_of x)) = Some w -> wt (TRef "LicenseExpressionDetail") w.
Proof.
  intros E W. destruct (wt_struct (TRef "LicenseExpressionDetail") _ _ eq_refl W) as (vs & -> & Z). apply everywhere_below in E. cbn [below] in E. open_typed vs E Z.
  unfold back_detail. cbn [back_of bsubs map]. parts.
Qed.
Lemma license_choice_typed x w : everywhere typed x -> wt (TRef "LicenseChoice") x -> back_license_choice (back_of x) = Some w -> wt (TRef "LicenseChoice") w.
Proof.
  intros E W. destruct (wt_struct (TRef "LicenseChoice") _ _ eq_refl W) as (vs & -> & Z). apply everywhere_below in E. cbn [below] in E. assert (E2 : list_all (everywhere typed) vs) by exact E. open_typed vs E Z.
  unfold back_license_choice. cbn [back_of bsubs map]. rewrite <- (somes_some back_detail). parts.
  - apply (behind_typed (TRef "LicenseExpressionDetail")); [assumption|apply E2|apply detail_typed].
  - unfold str_if. destruct (String.eqb _ ""); [exact I|reflexivity].
Qed.
Lemma zeros_typed t fs : kind_of t = KStruct fs -> zip_all (fun f x => wt (f_ty f) x) (XmlModel.zeros fs) fs.
Proof.
  intros K. pose proof (fun f => zero_typed t fs f K) as Z. clear K. induction fs as [|f fs IH]; [exact I|]. cbn [XmlModel.zeros map zip_all]. split; [apply Z; left; reflexivity|]. apply IH. intros g J. apply Z. right. exact J.
Qed.
Lemma ikev2_typed n fs vs w : kind_of (TRef n) = KStruct fs -> match fs with f :: _ => kind_of (f_ty f) = KStr | [] => False end -> list_all (everywhere typed) vs -> zip_all (fun f x => wt (f_ty f) x) vs fs ->
  back_method MIKEv2 fs (VStruct vs) (map back_of vs) = Some w -> wt (TRef n) w.
Proof.
  intros K T B Z E. pose proof (fields_typed _ _ _ K B Z) as F. pose proof (zeros_typed _ _ K) as Zs. destruct fs as [|f fs]; [contradiction|]. destruct vs as [|a vs]; [contradiction|].
  cbn [map back_method] in E. cbn [map] in F. destruct (bfilled (back_of a)); injection E as <-; cbn [wt]; rewrite K; [|exact F]. cbn [tl zip_all]. split; [exact T|apply Zs].
Qed.
Lemma identity_typed d : wt (TPtr (TRef "EvidenceIdentityChoice")) d -> everywhere typed d ->
  wt (TPtr (TRef "EvidenceIdentityChoice")) (match bpointee (back_of d) with
  | [one; many] =>
      let l := if bset many then bptr many (TSlice (TRef "EvidenceIdentity"))
               else match bptr one (TRef "EvidenceIdentity") with VPtr (Some x) => some_ptr (VSlice (Some [x])) | _ => VPtr None end in
      if nonnil l then some_ptr (VStruct [VPtr None; l]) else VPtr None
  | _ => VPtr None
  end).
Proof.
  intros W E. destruct (ptr_case _ _ W) as [->|(y & -> & Wy)]; [exact I|].
  pose proof (sub_typed _ y E eq_refl) as Ey. destruct (wt_struct (TRef "EvidenceIdentityChoice") _ _ eq_refl Wy) as (vs & -> & Z). apply everywhere_below in Ey. cbn [below] in Ey. open_typed vs Ey Z.
  rename v into a, v0 into b. cbn [bpointee back_of bsubs map]. cbv zeta.
  assert (X : wt (TPtr (TSlice (TRef "EvidenceIdentity"))) (if bset (back_of b) then bptr (back_of b) (TSlice (TRef "EvidenceIdentity"))
               else match bptr (back_of a) (TRef "EvidenceIdentity") with VPtr (Some x) => some_ptr (VSlice (Some [x])) | _ => VPtr None end)).
  { destruct (bset (back_of b)); [part|]. assert (Y : wt (TPtr (TRef "EvidenceIdentity")) (bptr (back_of a) (TRef "EvidenceIdentity"))) by part.
    destruct (ptr_case _ _ Y) as [->|(z & -> & Wz)]; [exact I|]. split; [exact Wz|exact I]. }
  set (l := if bset (back_of b) then _ else _) in *. clearbody l. destruct (nonnil l); [|exact I]. split; [exact I|]. split; [exact X|exact I].
Qed.
Lemma method_typed n m v omit w : In (n, m) xml_methods -> below typed v -> wt (TRef n) v -> bback (back_of v) (TRef n) omit = Some w -> wt (TRef n) w.
Proof.
  intros I B W. unfold xml_methods in I. cbn [In] in I.
  repeat (destruct I as [I|I]; [injection I as <- <-|]); [..|destruct I].
  - destruct v as [s| | | |[x|]|[l|]|]; cbn in W; try discriminate; try contradiction. intros E. injection E as <-. reflexivity.
  - revert W. apply (struct_typed _ fields_Copyright); [reflexivity|discriminate|exact B|]. intros vs w' Bs Z. open_typed vs Bs Z. cbn [map back_method]. parts.
  - revert W. apply (struct_typed _ fields_Dependency); [reflexivity|discriminate|exact B|]. intros vs w' Bs Z. open_typed vs Bs Z. parts.
  - assert (W' : wt (TSlice (TRef "EnvironmentVariableChoice")) v) by (destruct v as [| | | |[]|[]|]; exact W).
    destruct (slice_case _ _ W') as [->|(l & -> & Wl)]; [discriminate|]. destruct l as [|x l]; [discriminate|]. intros E. assert (F : Forall (wt (TRef "EnvironmentVariableChoice")) (somes back_environment (map back_of (x :: l)))); [|change (Some (VSlice (Some (somes back_environment (map back_of (x :: l))))) = Some w) in E; revert E F; generalize (somes back_environment (map back_of (x :: l))); intros ws E F; injection E as <-; apply (list_all_Forall (wt (TRef "EnvironmentVariableChoice"))), F].
    apply somes_typed; [|exact Wl]. intros y w' Iy Wy. apply environment_typed; [|exact Wy]. cbn [below] in B. apply list_all_Forall in B. rewrite Forall_forall in B. apply B, Iy.
  - revert W. apply (struct_typed _ fields_License); [reflexivity|discriminate|exact B|]. intros vs w' Bs Z E.
    change (Some (VStruct (back_fields fields_License (map back_of vs))) = Some w') in E. injection E as <-. exact (fields_typed (TRef "License") fields_License vs eq_refl Bs Z).
  - assert (W' : wt (TSlice (TRef "LicenseChoice")) v) by (destruct v as [| | | |[]|[]|]; exact W).
    destruct (slice_case _ _ W') as [->|(l & -> & Wl)]; [discriminate|]. destruct l as [|x l]; [discriminate|]. intros E. assert (F : Forall (wt (TRef "LicenseChoice")) (somes back_license_choice (map back_of (x :: l)))); [|change (Some (VSlice (Some (somes back_license_choice (map back_of (x :: l))))) = Some w) in E; revert E F; generalize (somes back_license_choice (map back_of (x :: l))); intros ws E F; injection E as <-; apply (list_all_Forall (wt (TRef "LicenseChoice"))), F].
    apply somes_typed; [|exact Wl]. intros y w' Iy Wy. apply license_choice_typed; [|exact Wy]. cbn [below] in B. apply list_all_Forall in B. rewrite Forall_forall in B. apply B, Iy.
  - revert W. apply (struct_typed _ fields_MLDatasetChoice); [reflexivity|discriminate|exact B|]. intros vs w' Bs Z. open_typed vs Bs Z. cbn [map back_method marshaler assoc xml_methods String.eqb Ascii.eqb Bool.eqb]. unfold drop_if. parts. destruct (zero_value _); part.
  - destruct v as [| | | |[x|]|[l|]|]; cbn in W; try discriminate; try contradiction. intros E. injection E as <-. reflexivity.
  - revert W. apply (struct_typed _ fields_CertificateState); [reflexivity|discriminate|exact B|]. intros vs w' Bs Z. open_typed vs Bs Z. rename v0 into a, v1 into b. change (marshaler (TRef "CertificateState")) with MState. cbn [map back_method].
    destruct (bset (back_of a)); [|parts]. destruct (bpointee (back_of a)) as [|p [|q [|]]]; try discriminate. intros E. injection E as <-. destruct (bfilled p); repeat split; part.
  - revert W. apply (struct_typed _ fields_CertificateExtension); [reflexivity|discriminate|exact B|]. intros vs w' Bs Z. open_typed vs Bs Z. rename v0 into a, v1 into b. change (marshaler (TRef "CertificateExtension")) with MExtension. cbn [map back_method].
    destruct (bset (back_of a)); [|parts]. destruct (bpointee (back_of a)) as [|p [|q [|]]]; try discriminate. intros E. injection E as <-. destruct (bfilled p); repeat split; part.
  - revert W. apply (struct_typed _ fields_AsserterChoice); [reflexivity|discriminate|exact B|]. intros vs w' Bs Z. open_typed vs Bs Z. change (marshaler (TRef "AsserterChoice")) with MAsserter. cbn [map back_method]. parts.
  - revert W. apply (struct_typed _ fields_IKEv2Auth); [reflexivity|discriminate|exact B|]. intros vs w' Bs Z. revert Bs Z. apply (ikev2_typed "IKEv2Auth"); reflexivity.
  - revert W. apply (struct_typed _ fields_IKEv2Enc); [reflexivity|discriminate|exact B|]. intros vs w' Bs Z. revert Bs Z. apply (ikev2_typed "IKEv2Enc"); reflexivity.
  - revert W. apply (struct_typed _ fields_IKEv2Integ); [reflexivity|discriminate|exact B|]. intros vs w' Bs Z. revert Bs Z. apply (ikev2_typed "IKEv2Integ"); reflexivity.
  - revert W. apply (struct_typed _ fields_IKEv2Ke); [reflexivity|discriminate|exact B|]. intros vs w' Bs Z. revert Bs Z. apply (ikev2_typed "IKEv2Ke"); reflexivity.
  - revert W. apply (struct_typed _ fields_IKEv2Prf); [reflexivity|discriminate|exact B|]. intros vs w' Bs Z. revert Bs Z. apply (ikev2_typed "IKEv2Prf"); reflexivity.
  - revert W. apply (struct_typed _ fields_ToolsChoice); [reflexivity|discriminate|exact B|]. intros vs w' Bs Z. open_typed vs Bs Z. change (marshaler (TRef "ToolsChoice")) with MTools. cbn [map back_method]. parts.
  - revert W. apply (struct_typed _ fields_Evidence); [reflexivity|discriminate|exact B|]. intros vs w' Bs Z. assert (B2 : list_all (everywhere typed) vs) by exact Bs. open_typed vs Bs Z. change (marshaler (TRef "Evidence")) with MEvidence. cbn [map back_method].
    destruct (_ || _)%bool; [|discriminate]. intros E. injection E as <-. split; [|split; [part|split; [|split; [|split; [part|exact I]]]]].
    + apply (identity_typed v0); [assumption|apply B2].
    + unfold drop_if. destruct (forallb _ _); part.
    + unfold drop_if. destruct (empty_value _); part.
  - revert W. apply (struct_typed _ fields_DataClassification); [reflexivity|discriminate|exact B|]. intros vs w' Bs Z. open_typed vs Bs Z. change (marshaler (TRef "DataClassification")) with MData. cbn [map back_method]. parts.
  - revert W. apply (struct_typed _ fields_Definitions); [reflexivity|discriminate|exact B|]. intros vs w' Bs Z. assert (B2 : list_all (everywhere typed) vs) by exact Bs. open_typed vs Bs Z. change (marshaler (TRef "Definitions")) with MDefinitions. cbn [map back_method]. parts.
    apply (behind_typed (TRef "PatentChoice")); [assumption|apply B2|apply patent_typed].
Qed.
Lemma plain_typed v t omit w : below typed v -> marshaler t = MNone -> wt t v -> bback (back_of v) t omit = Some w -> wt t w.
Proof.
  intros B M W E. destruct v as [s|z|b|f|[x|]|[l|]|vs]; cbn [back_of bback] in E; unfold back_value in E; rewrite ?M in E.
  - injection E as <-. exact W.
  - injection E as <-. exact W.
  - injection E as <-. exact W.
  - injection E as <-. exact W.
  - cbn [below] in B. cbn [wt] in W. destruct (kind_of t) as [| | | |t'|t'|fs|] eqn:K; try contradiction. assert (El : elem_ty t = t') by (unfold elem_ty; rewrite K; reflexivity). rewrite El in E.
    destruct (bback (back_of x) t' omit) as [y|] eqn:Q; [|discriminate]. injection E as <-. unfold some_ptr. cbn [wt]. rewrite K. apply (everywhere_here _ _ B _ _ _ W Q).
  - discriminate.
  - cbn [below] in B. cbn [wt] in W. destruct (kind_of t) as [| | | |t'|t'|fs|] eqn:K; try contradiction. assert (El : elem_ty t = t') by (unfold elem_ty; rewrite K; reflexivity). rewrite El in E.
    assert (F : Forall (wt t') (somes (fun n => checked_back n t' omit) (map back_of l))).
    { apply list_all_Forall in W, B. apply somes_typed; [|exact W]. intros x y Ix Wx Q. unfold checked_back in Q. destruct (omit && _)%bool; [discriminate|]. rewrite Forall_forall in B. apply (everywhere_here _ _ (B x Ix) _ _ _ Wx Q). }
    destruct (somes (fun n => checked_back n t' omit) (map back_of l)) as [|y ys]; [discriminate|]. injection E as <-. cbn [wt]. rewrite K. apply (list_all_Forall (wt t')), F.
  - discriminate.
  - injection E as <-. pose proof W as W0. cbn [wt] in W |- *. destruct (kind_of t) as [| | | |t'|t'|fs|] eqn:K; try contradiction. unfold fields_of. rewrite K. exact (fields_typed t fs vs K B W).
Qed.
Theorem all_typed v : everywhere typed v.
Proof.
  apply val_strong. clear v. intros v B t omit w W E. destruct (marshaler t) eqn:M; [apply (plain_typed v t omit w); assumption|..].
  all: destruct t as [| | | | | | |n]; try discriminate M; unfold marshaler in M; destruct (assoc n xml_methods) as [m|] eqn:A; [|discriminate M]; apply (method_typed n m v omit); [apply assoc_methods, A|assumption..].
Qed.

(** ** BOMs *)
Lemma part_values b : bom_values (set_BOM_XMLName (mkXMLName "" "") (set_BOM_SpecVersion 0%Z (set_BOM_JSONSchema "" (set_BOM_BOMFormat "" (set_BOM_Signature None b))))) =
  fields_of_val (xml_part b).
Proof. reflexivity. Qed.
Lemma part_shape b : xml_part b = VStruct (fields_of_val (xml_part b)).
Proof. destruct b. reflexivity. Qed.
Lemma back_part b : back_fields fields_BOM (map back_of (fields_of_val (reify_BOM b))) = back_fields fields_BOM (map back_of (fields_of_val (xml_part b))).
Proof. destruct b. reflexivity. Qed.
Lemma reflect_part b : reflect_BOM (xml_part b) = set_BOM_XMLName (mkXMLName "" "") (set_BOM_SpecVersion 0%Z (set_BOM_JSONSchema "" (set_BOM_BOMFormat "" (set_BOM_Signature None b)))).
Proof. unfold xml_part. apply inv_BOM. Qed.
Theorem lossless_iff b : xml_back b = xml_view b <-> xml_lossless b.
Proof.
  unfold xml_lossless. assert (W : wt (TRef "BOM") (xml_part b)) by apply typed_BOM. rewrite <- (everywhere_here _ _ (all_same (xml_part b)) (TRef "BOM") false W).
  assert (Bk : forall c, bback (back_of (reify_BOM c)) (TRef "BOM") false = Some (VStruct (back_fields fields_BOM (map back_of (fields_of_val (reify_BOM c)))))).
  { intros c. rewrite (bom_shape c) at 1. reflexivity. }
  set (w := VStruct (back_fields fields_BOM (map back_of (fields_of_val (reify_BOM b))))).
  assert (Q : bback (back_of (xml_part b)) (TRef "BOM") false = Some w). { etransitivity; [apply Bk|]. unfold w. rewrite (back_part b). reflexivity. }
  assert (Q0 : xml_back b = set_BOM_XMLName (mkXMLName (BOM_XMLNS (reflect_BOM w)) "bom") (set_BOM_SpecVersion (match_namespace xmlNamespaces (BOM_XMLNS (reflect_BOM w)) 0%Z) (reflect_BOM w))).
  { unfold xml_back. rewrite (Bk b). reflexivity. }
  rewrite Q0, Q. clear Bk Q0. split.
  - intros E. f_equal. assert (Ww : wt (TRef "BOM") w) by exact (everywhere_here _ _ (all_typed (xml_part b)) (TRef "BOM") false w W Q).
    rewrite <- (vni_BOM w Ww). cbv zeta in E. unfold xml_part. f_equal.
    assert (X0 : BOM_XMLName (reflect_BOM w) = mkXMLName "" "") by (destruct b; reflexivity).
    assert (X4 : BOM_SpecVersion (reflect_BOM w) = 0%Z) by (destruct b; reflexivity).
    assert (X2 : BOM_JSONSchema (reflect_BOM w) = "") by (destruct b; reflexivity).
    set (c := reflect_BOM w) in *. clearbody c. clear - E X0 X4 X2. unfold xml_view in E. destruct c, b. cbn in *. subst. injection E as E. intros. subst. reflexivity.
  - intros E. assert (E' : w = xml_part b) by congruence. rewrite E', reflect_part. destruct b. reflexivity.
Qed.
