(** GENERATED by tools/gen_table.py: [reify] and [reflect] are inverse to each other. *)
From Verif Require Import Base Types Univ TypeTable Wt Reify ReifyBase ConvertSpec ConvertProofs.
Local Open Scope string_scope.

Lemma kind_Property : kind_of (TRef "Property") = KStruct fields_Property. Proof. reflexivity. Qed.
Lemma wt_Property_inv v : wt (TRef "Property") v -> exists vs, v = VStruct vs /\ zip_all (fun f x => wt (f_ty f) x) vs fields_Property.
Proof.
  intros W. destruct v; cbn [wt] in W; rewrite kind_Property in W; try discriminate; try contradiction. eauto.
Qed.
Lemma inv_Property : inv reify_Property reflect_Property.
Proof. intros x; unfold reify_Property; cbn [reflect_Property]; rr; destruct x; reflexivity. Qed.
Lemma typed_Property : typed (TRef "Property") reify_Property.
Proof.
  intros x; unfold reify_Property; cbn [wt]; rewrite kind_Property; unfold fields_Property; cbn [zip_all f_ty]; fields_typed;
    match goal with |- wt ?t (?f ?x) => apply (ltac:(auto 8 with reify) : typed t f) end.
Qed.
Lemma vni_Property : vni (TRef "Property") reify_Property reflect_Property.
Proof.
  intros v W.
  apply wt_Property_inv in W as (vs & -> & W). unfold fields_Property in W.
  destruct vs as [|a0 vs]; [destruct W|]. destruct W as [W0 W]. cbn [f_ty] in W0.
  destruct vs as [|a1 vs]; [destruct W|]. destruct W as [W1 W]. cbn [f_ty] in W1.
  destruct vs as [|? ?]; [clear W|destruct W].
  cbn [reflect_Property]. unfold reify_Property. cbn [Property_Name Property_Value]. fields_back.
  - match goal with |- ?f (?g ?v) = _ => match type of W0 with wt ?t _ => exact ((ltac:(auto 8 with reify) : vni t f g) v W0) end end.
  - match goal with |- ?f (?g ?v) = _ => match type of W1 with wt ?t _ => exact ((ltac:(auto 8 with reify) : vni t f g) v W1) end end.
Qed.
#[export] Hint Resolve inv_Property typed_Property vni_Property : reify.

Lemma kind_EnvironmentVariableChoice : kind_of (TRef "EnvironmentVariableChoice") = KStruct fields_EnvironmentVariableChoice. Proof. reflexivity. Qed.
Lemma wt_EnvironmentVariableChoice_inv v : wt (TRef "EnvironmentVariableChoice") v -> exists vs, v = VStruct vs /\ zip_all (fun f x => wt (f_ty f) x) vs fields_EnvironmentVariableChoice.
Proof.
  intros W. destruct v; cbn [wt] in W; rewrite kind_EnvironmentVariableChoice in W; try discriminate; try contradiction. eauto.
Qed.
Lemma inv_EnvironmentVariableChoice : inv reify_EnvironmentVariableChoice reflect_EnvironmentVariableChoice.
Proof. intros x; unfold reify_EnvironmentVariableChoice; cbn [reflect_EnvironmentVariableChoice]; rr; destruct x; reflexivity. Qed.
Lemma typed_EnvironmentVariableChoice : typed (TRef "EnvironmentVariableChoice") reify_EnvironmentVariableChoice.
Proof.
  intros x; unfold reify_EnvironmentVariableChoice; cbn [wt]; rewrite kind_EnvironmentVariableChoice; unfold fields_EnvironmentVariableChoice; cbn [zip_all f_ty]; fields_typed;
    match goal with |- wt ?t (?f ?x) => apply (ltac:(auto 8 with reify) : typed t f) end.
Qed.
Lemma vni_EnvironmentVariableChoice : vni (TRef "EnvironmentVariableChoice") reify_EnvironmentVariableChoice reflect_EnvironmentVariableChoice.
Proof.
  intros v W.
  apply wt_EnvironmentVariableChoice_inv in W as (vs & -> & W). unfold fields_EnvironmentVariableChoice in W.
  destruct vs as [|a0 vs]; [destruct W|]. destruct W as [W0 W]. cbn [f_ty] in W0.
  destruct vs as [|a1 vs]; [destruct W|]. destruct W as [W1 W]. cbn [f_ty] in W1.
  destruct vs as [|? ?]; [clear W|destruct W].
  cbn [reflect_EnvironmentVariableChoice]. unfold reify_EnvironmentVariableChoice. cbn [EnvironmentVariableChoice_Property EnvironmentVariableChoice_Value]. fields_back.
  - match goal with |- ?f (?g ?v) = _ => match type of W0 with wt ?t _ => exact ((ltac:(auto 8 with reify) : vni t f g) v W0) end end.
  - match goal with |- ?f (?g ?v) = _ => match type of W1 with wt ?t _ => exact ((ltac:(auto 8 with reify) : vni t f g) v W1) end end.
Qed.
#[export] Hint Resolve inv_EnvironmentVariableChoice typed_EnvironmentVariableChoice vni_EnvironmentVariableChoice : reify.

Lemma kind_AttachedText : kind_of (TRef "AttachedText") = KStruct fields_AttachedText. Proof. reflexivity. Qed.
Lemma wt_AttachedText_inv v : wt (TRef "AttachedText") v -> exists vs, v = VStruct vs /\ zip_all (fun f x => wt (f_ty f) x) vs fields_AttachedText.
Proof.
  intros W. destruct v; cbn [wt] in W; rewrite kind_AttachedText in W; try discriminate; try contradiction. eauto.
Qed.
Lemma inv_AttachedText : inv reify_AttachedText reflect_AttachedText.
Proof. intros x; unfold reify_AttachedText; cbn [reflect_AttachedText]; rr; destruct x; reflexivity. Qed.
Lemma typed_AttachedText : typed (TRef "AttachedText") reify_AttachedText.
Proof.
  intros x; unfold reify_AttachedText; cbn [wt]; rewrite kind_AttachedText; unfold fields_AttachedText; cbn [zip_all f_ty]; fields_typed;
    match goal with |- wt ?t (?f ?x) => apply (ltac:(auto 8 with reify) : typed t f) end.
Qed.
Lemma vni_AttachedText : vni (TRef "AttachedText") reify_AttachedText reflect_AttachedText.
Proof.
  intros v W.
  apply wt_AttachedText_inv in W as (vs & -> & W). unfold fields_AttachedText in W.
  destruct vs as [|a0 vs]; [destruct W|]. destruct W as [W0 W]. cbn [f_ty] in W0.
  destruct vs as [|a1 vs]; [destruct W|]. destruct W as [W1 W]. cbn [f_ty] in W1.
  destruct vs as [|a2 vs]; [destruct W|]. destruct W as [W2 W]. cbn [f_ty] in W2.
  destruct vs as [|? ?]; [clear W|destruct W].
  cbn [reflect_AttachedText]. unfold reify_AttachedText. cbn [AttachedText_Content AttachedText_ContentType AttachedText_Encoding]. fields_back.
  - match goal with |- ?f (?g ?v) = _ => match type of W0 with wt ?t _ => exact ((ltac:(auto 8 with reify) : vni t f g) v W0) end end.
  - match goal with |- ?f (?g ?v) = _ => match type of W1 with wt ?t _ => exact ((ltac:(auto 8 with reify) : vni t f g) v W1) end end.
  - match goal with |- ?f (?g ?v) = _ => match type of W2 with wt ?t _ => exact ((ltac:(auto 8 with reify) : vni t f g) v W2) end end.
Qed.
#[export] Hint Resolve inv_AttachedText typed_AttachedText vni_AttachedText : reify.

Lemma kind_PostalAddress : kind_of (TRef "PostalAddress") = KStruct fields_PostalAddress. Proof. reflexivity. Qed.
Lemma wt_PostalAddress_inv v : wt (TRef "PostalAddress") v -> exists vs, v = VStruct vs /\ zip_all (fun f x => wt (f_ty f) x) vs fields_PostalAddress.
Proof.
  intros W. destruct v; cbn [wt] in W; rewrite kind_PostalAddress in W; try discriminate; try contradiction. eauto.
Qed.
Lemma inv_PostalAddress : inv reify_PostalAddress reflect_PostalAddress.
Proof. intros x; unfold reify_PostalAddress; cbn [reflect_PostalAddress]; rr; destruct x; reflexivity. Qed.
Lemma typed_PostalAddress : typed (TRef "PostalAddress") reify_PostalAddress.
Proof.
  intros x; unfold reify_PostalAddress; cbn [wt]; rewrite kind_PostalAddress; unfold fields_PostalAddress; cbn [zip_all f_ty]; fields_typed;
    match goal with |- wt ?t (?f ?x) => apply (ltac:(auto 8 with reify) : typed t f) end.
Qed.
Lemma vni_PostalAddress : vni (TRef "PostalAddress") reify_PostalAddress reflect_PostalAddress.
Proof.
  intros v W.
  apply wt_PostalAddress_inv in W as (vs & -> & W). unfold fields_PostalAddress in W.
  destruct vs as [|a0 vs]; [destruct W|]. destruct W as [W0 W]. cbn [f_ty] in W0.
  destruct vs as [|a1 vs]; [destruct W|]. destruct W as [W1 W]. cbn [f_ty] in W1.
  destruct vs as [|a2 vs]; [destruct W|]. destruct W as [W2 W]. cbn [f_ty] in W2.
  destruct vs as [|a3 vs]; [destruct W|]. destruct W as [W3 W]. cbn [f_ty] in W3.
  destruct vs as [|a4 vs]; [destruct W|]. destruct W as [W4 W]. cbn [f_ty] in W4.
  destruct vs as [|a5 vs]; [destruct W|]. destruct W as [W5 W]. cbn [f_ty] in W5.
  destruct vs as [|a6 vs]; [destruct W|]. destruct W as [W6 W]. cbn [f_ty] in W6.
  destruct vs as [|? ?]; [clear W|destruct W].
  cbn [reflect_PostalAddress]. unfold reify_PostalAddress. cbn [PostalAddress_BOMRef PostalAddress_Country PostalAddress_Region PostalAddress_Locality PostalAddress_PostOfficeBoxNumber PostalAddress_PostalCode PostalAddress_StreetAddress]. fields_back.
  - match goal with |- ?f (?g ?v) = _ => match type of W0 with wt ?t _ => exact ((ltac:(auto 8 with reify) : vni t f g) v W0) end end.
  - match goal with |- ?f (?g ?v) = _ => match type of W1 with wt ?t _ => exact ((ltac:(auto 8 with reify) : vni t f g) v W1) end end.
  - match goal with |- ?f (?g ?v) = _ => match type of W2 with wt ?t _ => exact ((ltac:(auto 8 with reify) : vni t f g) v W2) end end.
  - match goal with |- ?f (?g ?v) = _ => match type of W3 with wt ?t _ => exact ((ltac:(auto 8 with reify) : vni t f g) v W3) end end.
  - match goal with |- ?f (?g ?v) = _ => match type of W4 with wt ?t _ => exact ((ltac:(auto 8 with reify) : vni t f g) v W4) end end.
  - match goal with |- ?f (?g ?v) = _ => match type of W5 with wt ?t _ => exact ((ltac:(auto 8 with reify) : vni t f g) v W5) end end.
  - match goal with |- ?f (?g ?v) = _ => match type of W6 with wt ?t _ => exact ((ltac:(auto 8 with reify) : vni t f g) v W6) end end.
Qed.
#[export] Hint Resolve inv_PostalAddress typed_PostalAddress vni_PostalAddress : reify.

Lemma kind_OrganizationalContact : kind_of (TRef "OrganizationalContact") = KStruct fields_OrganizationalContact. Proof. reflexivity. Qed.
Lemma wt_OrganizationalContact_inv v : wt (TRef "OrganizationalContact") v -> exists vs, v = VStruct vs /\ zip_all (fun f x => wt (f_ty f) x) vs fields_OrganizationalContact.
Proof.
  intros W. destruct v; cbn [wt] in W; rewrite kind_OrganizationalContact in W; try discriminate; try contradiction. eauto.
Qed.
Lemma inv_OrganizationalContact : inv reify_OrganizationalContact reflect_OrganizationalContact.
Proof. intros x; unfold reify_OrganizationalContact; cbn [reflect_OrganizationalContact]; rr; destruct x; reflexivity. Qed.
Lemma typed_OrganizationalContact : typed (TRef "OrganizationalContact") reify_OrganizationalContact.
Proof.
  intros x; unfold reify_OrganizationalContact; cbn [wt]; rewrite kind_OrganizationalContact; unfold fields_OrganizationalContact; cbn [zip_all f_ty]; fields_typed;
    match goal with |- wt ?t (?f ?x) => apply (ltac:(auto 8 with reify) : typed t f) end.
Qed.
Lemma vni_OrganizationalContact : vni (TRef "OrganizationalContact") reify_OrganizationalContact reflect_OrganizationalContact.
Proof.
  intros v W.
  apply wt_OrganizationalContact_inv in W as (vs & -> & W). unfold fields_OrganizationalContact in W.
  destruct vs as [|a0 vs]; [destruct W|]. destruct W as [W0 W]. cbn [f_ty] in W0.
  destruct vs as [|a1 vs]; [destruct W|]. destruct W as [W1 W]. cbn [f_ty] in W1.
  destruct vs as [|a2 vs]; [destruct W|]. destruct W as [W2 W]. cbn [f_ty] in W2.
  destruct vs as [|a3 vs]; [destruct W|]. destruct W as [W3 W]. cbn [f_ty] in W3.
  destruct vs as [|? ?]; [clear W|destruct W].
  cbn [reflect_OrganizationalContact]. unfold reify_OrganizationalContact. cbn [OrganizationalContact_BOMRef OrganizationalContact_Name OrganizationalContact_Email OrganizationalContact_Phone]. fields_back.
  - match goal with |- ?f (?g ?v) = _ => match type of W0 with wt ?t _ => exact ((ltac:(auto 8 with reify) : vni t f g) v W0) end end.
  - match goal with |- ?f (?g ?v) = _ => match type of W1 with wt ?t _ => exact ((ltac:(auto 8 with reify) : vni t f g) v W1) end end.
  - match goal with |- ?f (?g ?v) = _ => match type of W2 with wt ?t _ => exact ((ltac:(auto 8 with reify) : vni t f g) v W2) end end.
  - match goal with |- ?f (?g ?v) = _ => match type of W3 with wt ?t _ => exact ((ltac:(auto 8 with reify) : vni t f g) v W3) end end.
Qed.
#[export] Hint Resolve inv_OrganizationalContact typed_OrganizationalContact vni_OrganizationalContact : reify.

Lemma kind_OrganizationalEntity : kind_of (TRef "OrganizationalEntity") = KStruct fields_OrganizationalEntity. Proof. reflexivity. Qed.
Lemma wt_OrganizationalEntity_inv v : wt (TRef "OrganizationalEntity") v -> exists vs, v = VStruct vs /\ zip_all (fun f x => wt (f_ty f) x) vs fields_OrganizationalEntity.
Proof.
  intros W. destruct v; cbn [wt] in W; rewrite kind_OrganizationalEntity in W; try discriminate; try contradiction. eauto.
Qed.
Lemma inv_OrganizationalEntity : inv reify_OrganizationalEntity reflect_OrganizationalEntity.
Proof. intros x; unfold reify_OrganizationalEntity; cbn [reflect_OrganizationalEntity]; rr; destruct x; reflexivity. Qed.
Lemma typed_OrganizationalEntity : typed (TRef "OrganizationalEntity") reify_OrganizationalEntity.
Proof.
  intros x; unfold reify_OrganizationalEntity; cbn [wt]; rewrite kind_OrganizationalEntity; unfold fields_OrganizationalEntity; cbn [zip_all f_ty]; fields_typed;
    match goal with |- wt ?t (?f ?x) => apply (ltac:(auto 8 with reify) : typed t f) end.
Qed.
Lemma vni_OrganizationalEntity : vni (TRef "OrganizationalEntity") reify_OrganizationalEntity reflect_OrganizationalEntity.
Proof.
  intros v W.
  apply wt_OrganizationalEntity_inv in W as (vs & -> & W). unfold fields_OrganizationalEntity in W.
  destruct vs as [|a0 vs]; [destruct W|]. destruct W as [W0 W]. cbn [f_ty] in W0.
  destruct vs as [|a1 vs]; [destruct W|]. destruct W as [W1 W]. cbn [f_ty] in W1.
  destruct vs as [|a2 vs]; [destruct W|]. destruct W as [W2 W]. cbn [f_ty] in W2.
  destruct vs as [|a3 vs]; [destruct W|]. destruct W as [W3 W]. cbn [f_ty] in W3.
  destruct vs as [|a4 vs]; [destruct W|]. destruct W as [W4 W]. cbn [f_ty] in W4.
  destruct vs as [|? ?]; [clear W|destruct W].
  cbn [reflect_OrganizationalEntity]. unfold reify_OrganizationalEntity. cbn [OrganizationalEntity_BOMRef OrganizationalEntity_Name OrganizationalEntity_Address OrganizationalEntity_URL OrganizationalEntity_Contact]. fields_back.
  - match goal with |- ?f (?g ?v) = _ => match type of W0 with wt ?t _ => exact ((ltac:(auto 8 with reify) : vni t f g) v W0) end end.
  - match goal with |- ?f (?g ?v) = _ => match type of W1 with wt ?t _ => exact ((ltac:(auto 8 with reify) : vni t f g) v W1) end end.
  - match goal with |- ?f (?g ?v) = _ => match type of W2 with wt ?t _ => exact ((ltac:(auto 8 with reify) : vni t f g) v W2) end end.
  - match goal with |- ?f (?g ?v) = _ => match type of W3 with wt ?t _ => exact ((ltac:(auto 8 with reify) : vni t f g) v W3) end end.
  - match goal with |- ?f (?g ?v) = _ => match type of W4 with wt ?t _ => exact ((ltac:(auto 8 with reify) : vni t f g) v W4) end end.
Qed.
#[export] Hint Resolve inv_OrganizationalEntity typed_OrganizationalEntity vni_OrganizationalEntity : reify.

Lemma kind_OrganizationalEntityOrContact : kind_of (TRef "OrganizationalEntityOrContact") = KStruct fields_OrganizationalEntityOrContact. Proof. reflexivity. Qed.
Lemma wt_OrganizationalEntityOrContact_inv v : wt (TRef "OrganizationalEntityOrContact") v -> exists vs, v = VStruct vs /\ zip_all (fun f x => wt (f_ty f) x) vs fields_OrganizationalEntityOrContact.
Proof.
  intros W. destruct v; cbn [wt] in W; rewrite kind_OrganizationalEntityOrContact in W; try discriminate; try contradiction. eauto.
Qed.
Lemma inv_OrganizationalEntityOrContact : inv reify_OrganizationalEntityOrContact reflect_OrganizationalEntityOrContact.
Proof. intros x; unfold reify_OrganizationalEntityOrContact; cbn [reflect_OrganizationalEntityOrContact]; rr; destruct x; reflexivity. Qed.
Lemma typed_OrganizationalEntityOrContact : typed (TRef "OrganizationalEntityOrContact") reify_OrganizationalEntityOrContact.
Proof.
  intros x; unfold reify_OrganizationalEntityOrContact; cbn [wt]; rewrite kind_OrganizationalEntityOrContact; unfold fields_OrganizationalEntityOrContact; cbn [zip_all f_ty]; fields_typed;
    match goal with |- wt ?t (?f ?x) => apply (ltac:(auto 8 with reify) : typed t f) end.
Qed.
Lemma vni_OrganizationalEntityOrContact : vni (TRef "OrganizationalEntityOrContact") reify_OrganizationalEntityOrContact reflect_OrganizationalEntityOrContact.
Proof.
  intros v W.
  apply wt_OrganizationalEntityOrContact_inv in W as (vs & -> & W). unfold fields_OrganizationalEntityOrContact in W.
  destruct vs as [|a0 vs]; [destruct W|]. destruct W as [W0 W]. cbn [f_ty] in W0.
  destruct vs as [|a1 vs]; [destruct W|]. destruct W as [W1 W]. cbn [f_ty] in W1.
  destruct vs as [|? ?]; [clear W|destruct W].
  cbn [reflect_OrganizationalEntityOrContact]. unfold reify_OrganizationalEntityOrContact. cbn [OrganizationalEntityOrContact_Organization OrganizationalEntityOrContact_Individual]. fields_back.
  - match goal with |- ?f (?g ?v) = _ => match type of W0 with wt ?t _ => exact ((ltac:(auto 8 with reify) : vni t f g) v W0) end end.
  - match goal with |- ?f (?g ?v) = _ => match type of W1 with wt ?t _ => exact ((ltac:(auto 8 with reify) : vni t f g) v W1) end end.
Qed.
#[export] Hint Resolve inv_OrganizationalEntityOrContact typed_OrganizationalEntityOrContact vni_OrganizationalEntityOrContact : reify.

Lemma kind_Licensing : kind_of (TRef "Licensing") = KStruct fields_Licensing. Proof. reflexivity. Qed.
Lemma wt_Licensing_inv v : wt (TRef "Licensing") v -> exists vs, v = VStruct vs /\ zip_all (fun f x => wt (f_ty f) x) vs fields_Licensing.
Proof.
  intros W. destruct v; cbn [wt] in W; rewrite kind_Licensing in W; try discriminate; try contradiction. eauto.
Qed.
Lemma inv_Licensing : inv reify_Licensing reflect_Licensing.
Proof. intros x; unfold reify_Licensing; cbn [reflect_Licensing]; rr; destruct x; reflexivity. Qed.
Lemma typed_Licensing : typed (TRef "Licensing") reify_Licensing.
Proof.
  intros x; unfold reify_Licensing; cbn [wt]; rewrite kind_Licensing; unfold fields_Licensing; cbn [zip_all f_ty]; fields_typed;
    match goal with |- wt ?t (?f ?x) => apply (ltac:(auto 8 with reify) : typed t f) end.
Qed.
Lemma vni_Licensing : vni (TRef "Licensing") reify_Licensing reflect_Licensing.
Proof.
  intros v W.
  apply wt_Licensing_inv in W as (vs & -> & W). unfold fields_Licensing in W.
  destruct vs as [|a0 vs]; [destruct W|]. destruct W as [W0 W]. cbn [f_ty] in W0.
  destruct vs as [|a1 vs]; [destruct W|]. destruct W as [W1 W]. cbn [f_ty] in W1.
  destruct vs as [|a2 vs]; [destruct W|]. destruct W as [W2 W]. cbn [f_ty] in W2.
  destruct vs as [|a3 vs]; [destruct W|]. destruct W as [W3 W]. cbn [f_ty] in W3.
  destruct vs as [|a4 vs]; [destruct W|]. destruct W as [W4 W]. cbn [f_ty] in W4.
  destruct vs as [|a5 vs]; [destruct W|]. destruct W as [W5 W]. cbn [f_ty] in W5.
  destruct vs as [|a6 vs]; [destruct W|]. destruct W as [W6 W]. cbn [f_ty] in W6.
  destruct vs as [|a7 vs]; [destruct W|]. destruct W as [W7 W]. cbn [f_ty] in W7.
  destruct vs as [|? ?]; [clear W|destruct W].
  cbn [reflect_Licensing]. unfold reify_Licensing. cbn [Licensing_AltIDs Licensing_Licensor Licensing_Licensee Licensing_Purchaser Licensing_PurchaseOrder Licensing_LicenseTypes Licensing_LastRenewal Licensing_Expiration]. fields_back.
  - match goal with |- ?f (?g ?v) = _ => match type of W0 with wt ?t _ => exact ((ltac:(auto 8 with reify) : vni t f g) v W0) end end.
  - match goal with |- ?f (?g ?v) = _ => match type of W1 with wt ?t _ => exact ((ltac:(auto 8 with reify) : vni t f g) v W1) end end.
  - match goal with |- ?f (?g ?v) = _ => match type of W2 with wt ?t _ => exact ((ltac:(auto 8 with reify) : vni t f g) v W2) end end.
  - match goal with |- ?f (?g ?v) = _ => match type of W3 with wt ?t _ => exact ((ltac:(auto 8 with reify) : vni t f g) v W3) end end.
  - match goal with |- ?f (?g ?v) = _ => match type of W4 with wt ?t _ => exact ((ltac:(auto 8 with reify) : vni t f g) v W4) end end.
  - match goal with |- ?f (?g ?v) = _ => match type of W5 with wt ?t _ => exact ((ltac:(auto 8 with reify) : vni t f g) v W5) end end.
  - match goal with |- ?f (?g ?v) = _ => match type of W6 with wt ?t _ => exact ((ltac:(auto 8 with reify) : vni t f g) v W6) end end.
  - match goal with |- ?f (?g ?v) = _ => match type of W7 with wt ?t _ => exact ((ltac:(auto 8 with reify) : vni t f g) v W7) end end.
Qed.
#[export] Hint Resolve inv_Licensing typed_Licensing vni_Licensing : reify.

Lemma kind_License : kind_of (TRef "License") = KStruct fields_License. Proof. reflexivity. Qed.
Lemma wt_License_inv v : wt (TRef "License") v -> exists vs, v = VStruct vs /\ zip_all (fun f x => wt (f_ty f) x) vs fields_License.
Proof.
  intros W. destruct v; cbn [wt] in W; rewrite kind_License in W; try discriminate; try contradiction. eauto.
Qed.
Lemma inv_License : inv reify_License reflect_License.
Proof. intros x; unfold reify_License; cbn [reflect_License]; rr; destruct x; reflexivity. Qed.
Lemma typed_License : typed (TRef "License") reify_License.
Proof.
  intros x; unfold reify_License; cbn [wt]; rewrite kind_License; unfold fields_License; cbn [zip_all f_ty]; fields_typed;
    match goal with |- wt ?t (?f ?x) => apply (ltac:(auto 8 with reify) : typed t f) end.
Qed.
Lemma vni_License : vni (TRef "License") reify_License reflect_License.
Proof.
  intros v W.
  apply wt_License_inv in W as (vs & -> & W). unfold fields_License in W.
  destruct vs as [|a0 vs]; [destruct W|]. destruct W as [W0 W]. cbn [f_ty] in W0.
  destruct vs as [|a1 vs]; [destruct W|]. destruct W as [W1 W]. cbn [f_ty] in W1.
  destruct vs as [|a2 vs]; [destruct W|]. destruct W as [W2 W]. cbn [f_ty] in W2.
  destruct vs as [|a3 vs]; [destruct W|]. destruct W as [W3 W]. cbn [f_ty] in W3.
  destruct vs as [|a4 vs]; [destruct W|]. destruct W as [W4 W]. cbn [f_ty] in W4.
  destruct vs as [|a5 vs]; [destruct W|]. destruct W as [W5 W]. cbn [f_ty] in W5.
  destruct vs as [|a6 vs]; [destruct W|]. destruct W as [W6 W]. cbn [f_ty] in W6.
  destruct vs as [|a7 vs]; [destruct W|]. destruct W as [W7 W]. cbn [f_ty] in W7.
  destruct vs as [|? ?]; [clear W|destruct W].
  cbn [reflect_License]. unfold reify_License. cbn [License_BOMRef License_ID License_Name License_Acknowledgement License_Text License_URL License_Licensing License_Properties]. fields_back.
  - match goal with |- ?f (?g ?v) = _ => match type of W0 with wt ?t _ => exact ((ltac:(auto 8 with reify) : vni t f g) v W0) end end.
  - match goal with |- ?f (?g ?v) = _ => match type of W1 with wt ?t _ => exact ((ltac:(auto 8 with reify) : vni t f g) v W1) end end.
  - match goal with |- ?f (?g ?v) = _ => match type of W2 with wt ?t _ => exact ((ltac:(auto 8 with reify) : vni t f g) v W2) end end.
  - match goal with |- ?f (?g ?v) = _ => match type of W3 with wt ?t _ => exact ((ltac:(auto 8 with reify) : vni t f g) v W3) end end.
  - match goal with |- ?f (?g ?v) = _ => match type of W4 with wt ?t _ => exact ((ltac:(auto 8 with reify) : vni t f g) v W4) end end.
  - match goal with |- ?f (?g ?v) = _ => match type of W5 with wt ?t _ => exact ((ltac:(auto 8 with reify) : vni t f g) v W5) end end.
  - match goal with |- ?f (?g ?v) = _ => match type of W6 with wt ?t _ => exact ((ltac:(auto 8 with reify) : vni t f g) v W6) end end.
  - match goal with |- ?f (?g ?v) = _ => match type of W7 with wt ?t _ => exact ((ltac:(auto 8 with reify) : vni t f g) v W7) end end.
Qed.
#[export] Hint Resolve inv_License typed_License vni_License : reify.

Lemma kind_LicenseExpressionDetail : kind_of (TRef "LicenseExpressionDetail") = KStruct fields_LicenseExpressionDetail. Proof. reflexivity. Qed.
Lemma wt_LicenseExpressionDetail_inv v : wt (TRef "LicenseExpressionDetail") v -> exists vs, v = VStruct vs /\ zip_all (fun f x => wt (f_ty f) x) vs fields_LicenseExpressionDetail.
Proof.
  intros W. destruct v; cbn [wt] in W; rewrite kind_LicenseExpressionDetail in W; try discriminate; try contradiction. eauto.
Qed.
Lemma inv_LicenseExpressionDetail : inv reify_LicenseExpressionDetail reflect_LicenseExpressionDetail.
Proof. intros x; unfold reify_LicenseExpressionDetail; cbn [reflect_LicenseExpressionDetail]; rr; destruct x; reflexivity. Qed.
Lemma typed_LicenseExpressionDetail : typed (TRef "LicenseExpressionDetail") reify_LicenseExpressionDetail.
Proof.
  intros x; unfold reify_LicenseExpressionDetail; cbn [wt]; rewrite kind_LicenseExpressionDetail; unfold fields_LicenseExpressionDetail; cbn [zip_all f_ty]; fields_typed;
    match goal with |- wt ?t (?f ?x) => apply (ltac:(auto 8 with reify) : typed t f) end.
Qed.
Lemma vni_LicenseExpressionDetail : vni (TRef "LicenseExpressionDetail") reify_LicenseExpressionDetail reflect_LicenseExpressionDetail.
Proof.
  intros v W.
  apply wt_LicenseExpressionDetail_inv in W as (vs & -> & W). unfold fields_LicenseExpressionDetail in W.
  destruct vs as [|a0 vs]; [destruct W|]. destruct W as [W0 W]. cbn [f_ty] in W0.
  destruct vs as [|a1 vs]; [destruct W|]. destruct W as [W1 W]. cbn [f_ty] in W1.
  destruct vs as [|a2 vs]; [destruct W|]. destruct W as [W2 W]. cbn [f_ty] in W2.
  destruct vs as [|a3 vs]; [destruct W|]. destruct W as [W3 W]. cbn [f_ty] in W3.
  destruct vs as [|? ?]; [clear W|destruct W].
  cbn [reflect_LicenseExpressionDetail]. unfold reify_LicenseExpressionDetail. cbn [LicenseExpressionDetail_LicenseIdentifier LicenseExpressionDetail_BOMRef LicenseExpressionDetail_Text LicenseExpressionDetail_URL]. fields_back.
  - match goal with |- ?f (?g ?v) = _ => match type of W0 with wt ?t _ => exact ((ltac:(auto 8 with reify) : vni t f g) v W0) end end.
  - match goal with |- ?f (?g ?v) = _ => match type of W1 with wt ?t _ => exact ((ltac:(auto 8 with reify) : vni t f g) v W1) end end.
  - match goal with |- ?f (?g ?v) = _ => match type of W2 with wt ?t _ => exact ((ltac:(auto 8 with reify) : vni t f g) v W2) end end.
  - match goal with |- ?f (?g ?v) = _ => match type of W3 with wt ?t _ => exact ((ltac:(auto 8 with reify) : vni t f g) v W3) end end.
Qed.
#[export] Hint Resolve inv_LicenseExpressionDetail typed_LicenseExpressionDetail vni_LicenseExpressionDetail : reify.

Lemma kind_LicenseChoice : kind_of (TRef "LicenseChoice") = KStruct fields_LicenseChoice. Proof. reflexivity. Qed.
Lemma wt_LicenseChoice_inv v : wt (TRef "LicenseChoice") v -> exists vs, v = VStruct vs /\ zip_all (fun f x => wt (f_ty f) x) vs fields_LicenseChoice.
Proof.
  intros W. destruct v; cbn [wt] in W; rewrite kind_LicenseChoice in W; try discriminate; try contradiction. eauto.
Qed.
Lemma inv_LicenseChoice : inv reify_LicenseChoice reflect_LicenseChoice.
Proof. intros x; unfold reify_LicenseChoice; cbn [reflect_LicenseChoice]; rr; destruct x; reflexivity. Qed.
Lemma typed_LicenseChoice : typed (TRef "LicenseChoice") reify_LicenseChoice.
Proof.
  intros x; unfold reify_LicenseChoice; cbn [wt]; rewrite kind_LicenseChoice; unfold fields_LicenseChoice; cbn [zip_all f_ty]; fields_typed;
    match goal with |- wt ?t (?f ?x) => apply (ltac:(auto 8 with reify) : typed t f) end.
Qed.
Lemma vni_LicenseChoice : vni (TRef "LicenseChoice") reify_LicenseChoice reflect_LicenseChoice.
Proof.
  intros v W.
  apply wt_LicenseChoice_inv in W as (vs & -> & W). unfold fields_LicenseChoice in W.
  destruct vs as [|a0 vs]; [destruct W|]. destruct W as [W0 W]. cbn [f_ty] in W0.
  destruct vs as [|a1 vs]; [destruct W|]. destruct W as [W1 W]. cbn [f_ty] in W1.
  destruct vs as [|a2 vs]; [destruct W|]. destruct W as [W2 W]. cbn [f_ty] in W2.
  destruct vs as [|a3 vs]; [destruct W|]. destruct W as [W3 W]. cbn [f_ty] in W3.
  destruct vs as [|a4 vs]; [destruct W|]. destruct W as [W4 W]. cbn [f_ty] in W4.
  destruct vs as [|a5 vs]; [destruct W|]. destruct W as [W5 W]. cbn [f_ty] in W5.
  destruct vs as [|a6 vs]; [destruct W|]. destruct W as [W6 W]. cbn [f_ty] in W6.
  destruct vs as [|? ?]; [clear W|destruct W].
  cbn [reflect_LicenseChoice]. unfold reify_LicenseChoice. cbn [LicenseChoice_License LicenseChoice_Expression LicenseChoice_ExpressionDetails LicenseChoice_Acknowledgement LicenseChoice_BOMRef LicenseChoice_Licensing LicenseChoice_Properties]. fields_back.
  - match goal with |- ?f (?g ?v) = _ => match type of W0 with wt ?t _ => exact ((ltac:(auto 8 with reify) : vni t f g) v W0) end end.
  - match goal with |- ?f (?g ?v) = _ => match type of W1 with wt ?t _ => exact ((ltac:(auto 8 with reify) : vni t f g) v W1) end end.
  - match goal with |- ?f (?g ?v) = _ => match type of W2 with wt ?t _ => exact ((ltac:(auto 8 with reify) : vni t f g) v W2) end end.
  - match goal with |- ?f (?g ?v) = _ => match type of W3 with wt ?t _ => exact ((ltac:(auto 8 with reify) : vni t f g) v W3) end end.
  - match goal with |- ?f (?g ?v) = _ => match type of W4 with wt ?t _ => exact ((ltac:(auto 8 with reify) : vni t f g) v W4) end end.
  - match goal with |- ?f (?g ?v) = _ => match type of W5 with wt ?t _ => exact ((ltac:(auto 8 with reify) : vni t f g) v W5) end end.
  - match goal with |- ?f (?g ?v) = _ => match type of W6 with wt ?t _ => exact ((ltac:(auto 8 with reify) : vni t f g) v W6) end end.
Qed.
#[export] Hint Resolve inv_LicenseChoice typed_LicenseChoice vni_LicenseChoice : reify.

Lemma kind_Advisory : kind_of (TRef "Advisory") = KStruct fields_Advisory. Proof. reflexivity. Qed.
Lemma wt_Advisory_inv v : wt (TRef "Advisory") v -> exists vs, v = VStruct vs /\ zip_all (fun f x => wt (f_ty f) x) vs fields_Advisory.
Proof.
  intros W. destruct v; cbn [wt] in W; rewrite kind_Advisory in W; try discriminate; try contradiction. eauto.
Qed.
Lemma inv_Advisory : inv reify_Advisory reflect_Advisory.
Proof. intros x; unfold reify_Advisory; cbn [reflect_Advisory]; rr; destruct x; reflexivity. Qed.
Lemma typed_Advisory : typed (TRef "Advisory") reify_Advisory.
Proof.
  intros x; unfold reify_Advisory; cbn [wt]; rewrite kind_Advisory; unfold fields_Advisory; cbn [zip_all f_ty]; fields_typed;
    match goal with |- wt ?t (?f ?x) => apply (ltac:(auto 8 with reify) : typed t f) end.
Qed.
Lemma vni_Advisory : vni (TRef "Advisory") reify_Advisory reflect_Advisory.
Proof.
  intros v W.
  apply wt_Advisory_inv in W as (vs & -> & W). unfold fields_Advisory in W.
  destruct vs as [|a0 vs]; [destruct W|]. destruct W as [W0 W]. cbn [f_ty] in W0.
  destruct vs as [|a1 vs]; [destruct W|]. destruct W as [W1 W]. cbn [f_ty] in W1.
  destruct vs as [|? ?]; [clear W|destruct W].
  cbn [reflect_Advisory]. unfold reify_Advisory. cbn [Advisory_Title Advisory_URL]. fields_back.
  - match goal with |- ?f (?g ?v) = _ => match type of W0 with wt ?t _ => exact ((ltac:(auto 8 with reify) : vni t f g) v W0) end end.
  - match goal with |- ?f (?g ?v) = _ => match type of W1 with wt ?t _ => exact ((ltac:(auto 8 with reify) : vni t f g) v W1) end end.
Qed.
#[export] Hint Resolve inv_Advisory typed_Advisory vni_Advisory : reify.

Lemma kind_AffectedVersions : kind_of (TRef "AffectedVersions") = KStruct fields_AffectedVersions. Proof. reflexivity. Qed.
Lemma wt_AffectedVersions_inv v : wt (TRef "AffectedVersions") v -> exists vs, v = VStruct vs /\ zip_all (fun f x => wt (f_ty f) x) vs fields_AffectedVersions.
Proof.
  intros W. destruct v; cbn [wt] in W; rewrite kind_AffectedVersions in W; try discriminate; try contradiction. eauto.
Qed.
Lemma inv_AffectedVersions : inv reify_AffectedVersions reflect_AffectedVersions.
Proof. intros x; unfold reify_AffectedVersions; cbn [reflect_AffectedVersions]; rr; destruct x; reflexivity. Qed.
Lemma typed_AffectedVersions : typed (TRef "AffectedVersions") reify_AffectedVersions.
Proof.
  intros x; unfold reify_AffectedVersions; cbn [wt]; rewrite kind_AffectedVersions; unfold fields_AffectedVersions; cbn [zip_all f_ty]; fields_typed;
    match goal with |- wt ?t (?f ?x) => apply (ltac:(auto 8 with reify) : typed t f) end.
Qed.
Lemma vni_AffectedVersions : vni (TRef "AffectedVersions") reify_AffectedVersions reflect_AffectedVersions.
Proof.
  intros v W.
  apply wt_AffectedVersions_inv in W as (vs & -> & W). unfold fields_AffectedVersions in W.
  destruct vs as [|a0 vs]; [destruct W|]. destruct W as [W0 W]. cbn [f_ty] in W0.
  destruct vs as [|a1 vs]; [destruct W|]. destruct W as [W1 W]. cbn [f_ty] in W1.
  destruct vs as [|a2 vs]; [destruct W|]. destruct W as [W2 W]. cbn [f_ty] in W2.
  destruct vs as [|? ?]; [clear W|destruct W].
  cbn [reflect_AffectedVersions]. unfold reify_AffectedVersions. cbn [AffectedVersions_Version AffectedVersions_Range AffectedVersions_Status]. fields_back.
  - match goal with |- ?f (?g ?v) = _ => match type of W0 with wt ?t _ => exact ((ltac:(auto 8 with reify) : vni t f g) v W0) end end.
  - match goal with |- ?f (?g ?v) = _ => match type of W1 with wt ?t _ => exact ((ltac:(auto 8 with reify) : vni t f g) v W1) end end.
  - match goal with |- ?f (?g ?v) = _ => match type of W2 with wt ?t _ => exact ((ltac:(auto 8 with reify) : vni t f g) v W2) end end.
Qed.
#[export] Hint Resolve inv_AffectedVersions typed_AffectedVersions vni_AffectedVersions : reify.

Lemma kind_Affects : kind_of (TRef "Affects") = KStruct fields_Affects. Proof. reflexivity. Qed.
Lemma wt_Affects_inv v : wt (TRef "Affects") v -> exists vs, v = VStruct vs /\ zip_all (fun f x => wt (f_ty f) x) vs fields_Affects.
Proof.
  intros W. destruct v; cbn [wt] in W; rewrite kind_Affects in W; try discriminate; try contradiction. eauto.
Qed.
Lemma inv_Affects : inv reify_Affects reflect_Affects.
Proof. intros x; unfold reify_Affects; cbn [reflect_Affects]; rr; destruct x; reflexivity. Qed.
Lemma typed_Affects : typed (TRef "Affects") reify_Affects.
Proof.
  intros x; unfold reify_Affects; cbn [wt]; rewrite kind_Affects; unfold fields_Affects; cbn [zip_all f_ty]; fields_typed;
    match goal with |- wt ?t (?f ?x) => apply (ltac:(auto 8 with reify) : typed t f) end.
Qed.
Lemma vni_Affects : vni (TRef "Affects") reify_Affects reflect_Affects.
Proof.
  intros v W.
  apply wt_Affects_inv in W as (vs & -> & W). unfold fields_Affects in W.
  destruct vs as [|a0 vs]; [destruct W|]. destruct W as [W0 W]. cbn [f_ty] in W0.
  destruct vs as [|a1 vs]; [destruct W|]. destruct W as [W1 W]. cbn [f_ty] in W1.
  destruct vs as [|? ?]; [clear W|destruct W].
  cbn [reflect_Affects]. unfold reify_Affects. cbn [Affects_Ref Affects_Range]. fields_back.
  - match goal with |- ?f (?g ?v) = _ => match type of W0 with wt ?t _ => exact ((ltac:(auto 8 with reify) : vni t f g) v W0) end end.
  - match goal with |- ?f (?g ?v) = _ => match type of W1 with wt ?t _ => exact ((ltac:(auto 8 with reify) : vni t f g) v W1) end end.
Qed.
#[export] Hint Resolve inv_Affects typed_Affects vni_Affects : reify.

Lemma kind_Hash : kind_of (TRef "Hash") = KStruct fields_Hash. Proof. reflexivity. Qed.
Lemma wt_Hash_inv v : wt (TRef "Hash") v -> exists vs, v = VStruct vs /\ zip_all (fun f x => wt (f_ty f) x) vs fields_Hash.
Proof.
  intros W. destruct v; cbn [wt] in W; rewrite kind_Hash in W; try discriminate; try contradiction. eauto.
Qed.
Lemma inv_Hash : inv reify_Hash reflect_Hash.
Proof. intros x; unfold reify_Hash; cbn [reflect_Hash]; rr; destruct x; reflexivity. Qed.
Lemma typed_Hash : typed (TRef "Hash") reify_Hash.
Proof.
  intros x; unfold reify_Hash; cbn [wt]; rewrite kind_Hash; unfold fields_Hash; cbn [zip_all f_ty]; fields_typed;
    match goal with |- wt ?t (?f ?x) => apply (ltac:(auto 8 with reify) : typed t f) end.
Qed.
Lemma vni_Hash : vni (TRef "Hash") reify_Hash reflect_Hash.
Proof.
  intros v W.
  apply wt_Hash_inv in W as (vs & -> & W). unfold fields_Hash in W.
  destruct vs as [|a0 vs]; [destruct W|]. destruct W as [W0 W]. cbn [f_ty] in W0.
  destruct vs as [|a1 vs]; [destruct W|]. destruct W as [W1 W]. cbn [f_ty] in W1.
  destruct vs as [|? ?]; [clear W|destruct W].
  cbn [reflect_Hash]. unfold reify_Hash. cbn [Hash_Algorithm Hash_Value]. fields_back.
  - match goal with |- ?f (?g ?v) = _ => match type of W0 with wt ?t _ => exact ((ltac:(auto 8 with reify) : vni t f g) v W0) end end.
  - match goal with |- ?f (?g ?v) = _ => match type of W1 with wt ?t _ => exact ((ltac:(auto 8 with reify) : vni t f g) v W1) end end.
Qed.
#[export] Hint Resolve inv_Hash typed_Hash vni_Hash : reify.

Lemma kind_SWID : kind_of (TRef "SWID") = KStruct fields_SWID. Proof. reflexivity. Qed.
Lemma wt_SWID_inv v : wt (TRef "SWID") v -> exists vs, v = VStruct vs /\ zip_all (fun f x => wt (f_ty f) x) vs fields_SWID.
Proof.
  intros W. destruct v; cbn [wt] in W; rewrite kind_SWID in W; try discriminate; try contradiction. eauto.
Qed.
Lemma inv_SWID : inv reify_SWID reflect_SWID.
Proof. intros x; unfold reify_SWID; cbn [reflect_SWID]; rr; destruct x; reflexivity. Qed.
Lemma typed_SWID : typed (TRef "SWID") reify_SWID.
Proof.
  intros x; unfold reify_SWID; cbn [wt]; rewrite kind_SWID; unfold fields_SWID; cbn [zip_all f_ty]; fields_typed;
    match goal with |- wt ?t (?f ?x) => apply (ltac:(auto 8 with reify) : typed t f) end.
Qed.
Lemma vni_SWID : vni (TRef "SWID") reify_SWID reflect_SWID.
Proof.
  intros v W.
  apply wt_SWID_inv in W as (vs & -> & W). unfold fields_SWID in W.
  destruct vs as [|a0 vs]; [destruct W|]. destruct W as [W0 W]. cbn [f_ty] in W0.
  destruct vs as [|a1 vs]; [destruct W|]. destruct W as [W1 W]. cbn [f_ty] in W1.
  destruct vs as [|a2 vs]; [destruct W|]. destruct W as [W2 W]. cbn [f_ty] in W2.
  destruct vs as [|a3 vs]; [destruct W|]. destruct W as [W3 W]. cbn [f_ty] in W3.
  destruct vs as [|a4 vs]; [destruct W|]. destruct W as [W4 W]. cbn [f_ty] in W4.
  destruct vs as [|a5 vs]; [destruct W|]. destruct W as [W5 W]. cbn [f_ty] in W5.
  destruct vs as [|a6 vs]; [destruct W|]. destruct W as [W6 W]. cbn [f_ty] in W6.
  destruct vs as [|? ?]; [clear W|destruct W].
  cbn [reflect_SWID]. unfold reify_SWID. cbn [SWID_Text SWID_URL SWID_TagID SWID_Name SWID_Version SWID_TagVersion SWID_Patch]. fields_back.
  - match goal with |- ?f (?g ?v) = _ => match type of W0 with wt ?t _ => exact ((ltac:(auto 8 with reify) : vni t f g) v W0) end end.
  - match goal with |- ?f (?g ?v) = _ => match type of W1 with wt ?t _ => exact ((ltac:(auto 8 with reify) : vni t f g) v W1) end end.
  - match goal with |- ?f (?g ?v) = _ => match type of W2 with wt ?t _ => exact ((ltac:(auto 8 with reify) : vni t f g) v W2) end end.
  - match goal with |- ?f (?g ?v) = _ => match type of W3 with wt ?t _ => exact ((ltac:(auto 8 with reify) : vni t f g) v W3) end end.
  - match goal with |- ?f (?g ?v) = _ => match type of W4 with wt ?t _ => exact ((ltac:(auto 8 with reify) : vni t f g) v W4) end end.
  - match goal with |- ?f (?g ?v) = _ => match type of W5 with wt ?t _ => exact ((ltac:(auto 8 with reify) : vni t f g) v W5) end end.
  - match goal with |- ?f (?g ?v) = _ => match type of W6 with wt ?t _ => exact ((ltac:(auto 8 with reify) : vni t f g) v W6) end end.
Qed.
#[export] Hint Resolve inv_SWID typed_SWID vni_SWID : reify.

Lemma kind_IdentifiableAction : kind_of (TRef "IdentifiableAction") = KStruct fields_IdentifiableAction. Proof. reflexivity. Qed.
Lemma wt_IdentifiableAction_inv v : wt (TRef "IdentifiableAction") v -> exists vs, v = VStruct vs /\ zip_all (fun f x => wt (f_ty f) x) vs fields_IdentifiableAction.
Proof.
  intros W. destruct v; cbn [wt] in W; rewrite kind_IdentifiableAction in W; try discriminate; try contradiction. eauto.
Qed.
Lemma inv_IdentifiableAction : inv reify_IdentifiableAction reflect_IdentifiableAction.
Proof. intros x; unfold reify_IdentifiableAction; cbn [reflect_IdentifiableAction]; rr; destruct x; reflexivity. Qed.
Lemma typed_IdentifiableAction : typed (TRef "IdentifiableAction") reify_IdentifiableAction.
Proof.
  intros x; unfold reify_IdentifiableAction; cbn [wt]; rewrite kind_IdentifiableAction; unfold fields_IdentifiableAction; cbn [zip_all f_ty]; fields_typed;
    match goal with |- wt ?t (?f ?x) => apply (ltac:(auto 8 with reify) : typed t f) end.
Qed.
Lemma vni_IdentifiableAction : vni (TRef "IdentifiableAction") reify_IdentifiableAction reflect_IdentifiableAction.
Proof.
  intros v W.
  apply wt_IdentifiableAction_inv in W as (vs & -> & W). unfold fields_IdentifiableAction in W.
  destruct vs as [|a0 vs]; [destruct W|]. destruct W as [W0 W]. cbn [f_ty] in W0.
  destruct vs as [|a1 vs]; [destruct W|]. destruct W as [W1 W]. cbn [f_ty] in W1.
  destruct vs as [|a2 vs]; [destruct W|]. destruct W as [W2 W]. cbn [f_ty] in W2.
  destruct vs as [|? ?]; [clear W|destruct W].
  cbn [reflect_IdentifiableAction]. unfold reify_IdentifiableAction. cbn [IdentifiableAction_Timestamp IdentifiableAction_Name IdentifiableAction_Email]. fields_back.
  - match goal with |- ?f (?g ?v) = _ => match type of W0 with wt ?t _ => exact ((ltac:(auto 8 with reify) : vni t f g) v W0) end end.
  - match goal with |- ?f (?g ?v) = _ => match type of W1 with wt ?t _ => exact ((ltac:(auto 8 with reify) : vni t f g) v W1) end end.
  - match goal with |- ?f (?g ?v) = _ => match type of W2 with wt ?t _ => exact ((ltac:(auto 8 with reify) : vni t f g) v W2) end end.
Qed.
#[export] Hint Resolve inv_IdentifiableAction typed_IdentifiableAction vni_IdentifiableAction : reify.

Lemma kind_Commit : kind_of (TRef "Commit") = KStruct fields_Commit. Proof. reflexivity. Qed.
Lemma wt_Commit_inv v : wt (TRef "Commit") v -> exists vs, v = VStruct vs /\ zip_all (fun f x => wt (f_ty f) x) vs fields_Commit.
Proof.
  intros W. destruct v; cbn [wt] in W; rewrite kind_Commit in W; try discriminate; try contradiction. eauto.
Qed.
Lemma inv_Commit : inv reify_Commit reflect_Commit.
Proof. intros x; unfold reify_Commit; cbn [reflect_Commit]; rr; destruct x; reflexivity. Qed.
Lemma typed_Commit : typed (TRef "Commit") reify_Commit.
Proof.
  intros x; unfold reify_Commit; cbn [wt]; rewrite kind_Commit; unfold fields_Commit; cbn [zip_all f_ty]; fields_typed;
    match goal with |- wt ?t (?f ?x) => apply (ltac:(auto 8 with reify) : typed t f) end.
Qed.
Lemma vni_Commit : vni (TRef "Commit") reify_Commit reflect_Commit.
Proof.
  intros v W.
  apply wt_Commit_inv in W as (vs & -> & W). unfold fields_Commit in W.
  destruct vs as [|a0 vs]; [destruct W|]. destruct W as [W0 W]. cbn [f_ty] in W0.
  destruct vs as [|a1 vs]; [destruct W|]. destruct W as [W1 W]. cbn [f_ty] in W1.
  destruct vs as [|a2 vs]; [destruct W|]. destruct W as [W2 W]. cbn [f_ty] in W2.
  destruct vs as [|a3 vs]; [destruct W|]. destruct W as [W3 W]. cbn [f_ty] in W3.
  destruct vs as [|a4 vs]; [destruct W|]. destruct W as [W4 W]. cbn [f_ty] in W4.
  destruct vs as [|? ?]; [clear W|destruct W].
  cbn [reflect_Commit]. unfold reify_Commit. cbn [Commit_UID Commit_URL Commit_Author Commit_Committer Commit_Message]. fields_back.
  - match goal with |- ?f (?g ?v) = _ => match type of W0 with wt ?t _ => exact ((ltac:(auto 8 with reify) : vni t f g) v W0) end end.
  - match goal with |- ?f (?g ?v) = _ => match type of W1 with wt ?t _ => exact ((ltac:(auto 8 with reify) : vni t f g) v W1) end end.
  - match goal with |- ?f (?g ?v) = _ => match type of W2 with wt ?t _ => exact ((ltac:(auto 8 with reify) : vni t f g) v W2) end end.
  - match goal with |- ?f (?g ?v) = _ => match type of W3 with wt ?t _ => exact ((ltac:(auto 8 with reify) : vni t f g) v W3) end end.
  - match goal with |- ?f (?g ?v) = _ => match type of W4 with wt ?t _ => exact ((ltac:(auto 8 with reify) : vni t f g) v W4) end end.
Qed.
#[export] Hint Resolve inv_Commit typed_Commit vni_Commit : reify.

Lemma kind_Diff : kind_of (TRef "Diff") = KStruct fields_Diff. Proof. reflexivity. Qed.
Lemma wt_Diff_inv v : wt (TRef "Diff") v -> exists vs, v = VStruct vs /\ zip_all (fun f x => wt (f_ty f) x) vs fields_Diff.
Proof.
  intros W. destruct v; cbn [wt] in W; rewrite kind_Diff in W; try discriminate; try contradiction. eauto.
Qed.
Lemma inv_Diff : inv reify_Diff reflect_Diff.
Proof. intros x; unfold reify_Diff; cbn [reflect_Diff]; rr; destruct x; reflexivity. Qed.
Lemma typed_Diff : typed (TRef "Diff") reify_Diff.
Proof.
  intros x; unfold reify_Diff; cbn [wt]; rewrite kind_Diff; unfold fields_Diff; cbn [zip_all f_ty]; fields_typed;
    match goal with |- wt ?t (?f ?x) => apply (ltac:(auto 8 with reify) : typed t f) end.
Qed.
Lemma vni_Diff : vni (TRef "Diff") reify_Diff reflect_Diff.
Proof.
  intros v W.
  apply wt_Diff_inv in W as (vs & -> & W). unfold fields_Diff in W.
  destruct vs as [|a0 vs]; [destruct W|]. destruct W as [W0 W]. cbn [f_ty] in W0.
  destruct vs as [|a1 vs]; [destruct W|]. destruct W as [W1 W]. cbn [f_ty] in W1.
  destruct vs as [|? ?]; [clear W|destruct W].
  cbn [reflect_Diff]. unfold reify_Diff. cbn [Diff_Text Diff_URL]. fields_back.
  - match goal with |- ?f (?g ?v) = _ => match type of W0 with wt ?t _ => exact ((ltac:(auto 8 with reify) : vni t f g) v W0) end end.
  - match goal with |- ?f (?g ?v) = _ => match type of W1 with wt ?t _ => exact ((ltac:(auto 8 with reify) : vni t f g) v W1) end end.
Qed.
#[export] Hint Resolve inv_Diff typed_Diff vni_Diff : reify.

Lemma kind_Source : kind_of (TRef "Source") = KStruct fields_Source. Proof. reflexivity. Qed.
Lemma wt_Source_inv v : wt (TRef "Source") v -> exists vs, v = VStruct vs /\ zip_all (fun f x => wt (f_ty f) x) vs fields_Source.
Proof.
  intros W. destruct v; cbn [wt] in W; rewrite kind_Source in W; try discriminate; try contradiction. eauto.
Qed.
Lemma inv_Source : inv reify_Source reflect_Source.
Proof. intros x; unfold reify_Source; cbn [reflect_Source]; rr; destruct x; reflexivity. Qed.
Lemma typed_Source : typed (TRef "Source") reify_Source.
Proof.
  intros x; unfold reify_Source; cbn [wt]; rewrite kind_Source; unfold fields_Source; cbn [zip_all f_ty]; fields_typed;
    match goal with |- wt ?t (?f ?x) => apply (ltac:(auto 8 with reify) : typed t f) end.
Qed.
Lemma vni_Source : vni (TRef "Source") reify_Source reflect_Source.
Proof.
  intros v W.
  apply wt_Source_inv in W as (vs & -> & W). unfold fields_Source in W.
  destruct vs as [|a0 vs]; [destruct W|]. destruct W as [W0 W]. cbn [f_ty] in W0.
  destruct vs as [|a1 vs]; [destruct W|]. destruct W as [W1 W]. cbn [f_ty] in W1.
  destruct vs as [|? ?]; [clear W|destruct W].
  cbn [reflect_Source]. unfold reify_Source. cbn [Source_Name Source_URL]. fields_back.
  - match goal with |- ?f (?g ?v) = _ => match type of W0 with wt ?t _ => exact ((ltac:(auto 8 with reify) : vni t f g) v W0) end end.
  - match goal with |- ?f (?g ?v) = _ => match type of W1 with wt ?t _ => exact ((ltac:(auto 8 with reify) : vni t f g) v W1) end end.
Qed.
#[export] Hint Resolve inv_Source typed_Source vni_Source : reify.

Lemma kind_Issue : kind_of (TRef "Issue") = KStruct fields_Issue. Proof. reflexivity. Qed.
Lemma wt_Issue_inv v : wt (TRef "Issue") v -> exists vs, v = VStruct vs /\ zip_all (fun f x => wt (f_ty f) x) vs fields_Issue.
Proof.
  intros W. destruct v; cbn [wt] in W; rewrite kind_Issue in W; try discriminate; try contradiction. eauto.
Qed.
Lemma inv_Issue : inv reify_Issue reflect_Issue.
Proof. intros x; unfold reify_Issue; cbn [reflect_Issue]; rr; destruct x; reflexivity. Qed.
Lemma typed_Issue : typed (TRef "Issue") reify_Issue.
Proof.
  intros x; unfold reify_Issue; cbn [wt]; rewrite kind_Issue; unfold fields_Issue; cbn [zip_all f_ty]; fields_typed;
    match goal with |- wt ?t (?f ?x) => apply (ltac:(auto 8 with reify) : typed t f) end.
Qed.
Lemma vni_Issue : vni (TRef "Issue") reify_Issue reflect_Issue.
Proof.
  intros v W.
  apply wt_Issue_inv in W as (vs & -> & W). unfold fields_Issue in W.
  destruct vs as [|a0 vs]; [destruct W|]. destruct W as [W0 W]. cbn [f_ty] in W0.
  destruct vs as [|a1 vs]; [destruct W|]. destruct W as [W1 W]. cbn [f_ty] in W1.
  destruct vs as [|a2 vs]; [destruct W|]. destruct W as [W2 W]. cbn [f_ty] in W2.
  destruct vs as [|a3 vs]; [destruct W|]. destruct W as [W3 W]. cbn [f_ty] in W3.
  destruct vs as [|a4 vs]; [destruct W|]. destruct W as [W4 W]. cbn [f_ty] in W4.
  destruct vs as [|a5 vs]; [destruct W|]. destruct W as [W5 W]. cbn [f_ty] in W5.
  destruct vs as [|? ?]; [clear W|destruct W].
  cbn [reflect_Issue]. unfold reify_Issue. cbn [Issue_ID Issue_Name Issue_Description Issue_Source Issue_References Issue_Type]. fields_back.
  - match goal with |- ?f (?g ?v) = _ => match type of W0 with wt ?t _ => exact ((ltac:(auto 8 with reify) : vni t f g) v W0) end end.
  - match goal with |- ?f (?g ?v) = _ => match type of W1 with wt ?t _ => exact ((ltac:(auto 8 with reify) : vni t f g) v W1) end end.
  - match goal with |- ?f (?g ?v) = _ => match type of W2 with wt ?t _ => exact ((ltac:(auto 8 with reify) : vni t f g) v W2) end end.
  - match goal with |- ?f (?g ?v) = _ => match type of W3 with wt ?t _ => exact ((ltac:(auto 8 with reify) : vni t f g) v W3) end end.
  - match goal with |- ?f (?g ?v) = _ => match type of W4 with wt ?t _ => exact ((ltac:(auto 8 with reify) : vni t f g) v W4) end end.
  - match goal with |- ?f (?g ?v) = _ => match type of W5 with wt ?t _ => exact ((ltac:(auto 8 with reify) : vni t f g) v W5) end end.
Qed.
#[export] Hint Resolve inv_Issue typed_Issue vni_Issue : reify.

Lemma kind_Patch : kind_of (TRef "Patch") = KStruct fields_Patch. Proof. reflexivity. Qed.
Lemma wt_Patch_inv v : wt (TRef "Patch") v -> exists vs, v = VStruct vs /\ zip_all (fun f x => wt (f_ty f) x) vs fields_Patch.
Proof.
  intros W. destruct v; cbn [wt] in W; rewrite kind_Patch in W; try discriminate; try contradiction. eauto.
Qed.
Lemma inv_Patch : inv reify_Patch reflect_Patch.
Proof. intros x; unfold reify_Patch; cbn [reflect_Patch]; rr; destruct x; reflexivity. Qed.
Lemma typed_Patch : typed (TRef "Patch") reify_Patch.
Proof.
  intros x; unfold reify_Patch; cbn [wt]; rewrite kind_Patch; unfold fields_Patch; cbn [zip_all f_ty]; fields_typed;
    match goal with |- wt ?t (?f ?x) => apply (ltac:(auto 8 with reify) : typed t f) end.
Qed.
Lemma vni_Patch : vni (TRef "Patch") reify_Patch reflect_Patch.
Proof.
  intros v W.
  apply wt_Patch_inv in W as (vs & -> & W). unfold fields_Patch in W.
  destruct vs as [|a0 vs]; [destruct W|]. destruct W as [W0 W]. cbn [f_ty] in W0.
  destruct vs as [|a1 vs]; [destruct W|]. destruct W as [W1 W]. cbn [f_ty] in W1.
  destruct vs as [|a2 vs]; [destruct W|]. destruct W as [W2 W]. cbn [f_ty] in W2.
  destruct vs as [|? ?]; [clear W|destruct W].
  cbn [reflect_Patch]. unfold reify_Patch. cbn [Patch_Diff Patch_Resolves Patch_Type]. fields_back.
  - match goal with |- ?f (?g ?v) = _ => match type of W0 with wt ?t _ => exact ((ltac:(auto 8 with reify) : vni t f g) v W0) end end.
  - match goal with |- ?f (?g ?v) = _ => match type of W1 with wt ?t _ => exact ((ltac:(auto 8 with reify) : vni t f g) v W1) end end.
  - match goal with |- ?f (?g ?v) = _ => match type of W2 with wt ?t _ => exact ((ltac:(auto 8 with reify) : vni t f g) v W2) end end.
Qed.
#[export] Hint Resolve inv_Patch typed_Patch vni_Patch : reify.

Lemma kind_Pedigree : kind_of (TRef "Pedigree") = KStruct fields_Pedigree. Proof. reflexivity. Qed.
Lemma wt_Pedigree_inv v : wt (TRef "Pedigree") v -> exists vs, v = VStruct vs /\ zip_all (fun f x => wt (f_ty f) x) vs fields_Pedigree.
Proof.
  intros W. destruct v; cbn [wt] in W; rewrite kind_Pedigree in W; try discriminate; try contradiction. eauto.
Qed.
Lemma inv_Pedigree_in {C} (f : C -> val) (g : val -> C) (x : Pedigree_ C) :
  (forall l, In l [Pedigree_Ancestors x; Pedigree_Descendants x; Pedigree_Variants x] -> ptr_of (slice_of g) (vptr (vslice f) l) = l) ->
  reflect_Pedigree_ g (reify_Pedigree_ f x) = x.
Proof.
  intros H. unfold reify_Pedigree_. cbn [reflect_Pedigree_]. rewrite !H by (cbn; auto).
  rr. destruct x; reflexivity.
Qed.
Lemma typed_Pedigree_in {C} (f : C -> val) (x : Pedigree_ C) :
  (forall l, In l [Pedigree_Ancestors x; Pedigree_Descendants x; Pedigree_Variants x] -> wt (TPtr (TSlice (TRef "Component"))) (vptr (vslice f) l)) ->
  wt (TRef "Pedigree") (reify_Pedigree_ f x).
Proof.
  intros H. unfold reify_Pedigree_. cbn [wt]. rewrite kind_Pedigree. unfold fields_Pedigree. cbn [zip_all f_ty].
  fields_typed; try (apply H; cbn; auto; fail).
  - apply (typed_ptr _ _ (typed_slice _ _ typed_Commit)).
  - apply (typed_ptr _ _ (typed_slice _ _ typed_Patch)).
  - apply typed_str.
Qed.
Lemma vni_Pedigree_in {C} (f : C -> val) (g : val -> C) vs :
  Forall (fun v => wt (TPtr (TSlice (TRef "Component"))) v -> vptr (vslice f) (ptr_of (slice_of g) v) = v) vs ->
  wt (TRef "Pedigree") (VStruct vs) -> reify_Pedigree_ f (reflect_Pedigree_ g (VStruct vs)) = VStruct vs.
Proof.
  intros IH W.
  apply wt_Pedigree_inv in W as (vs' & E & W). injection E as <-. unfold fields_Pedigree in W.
  destruct vs as [|a0 [|a1 [|a2 [|a3 [|a4 [|a5 [|]]]]]]]; try (cbn [zip_all] in W; tauto).
  cbn [zip_all f_ty] in W. destruct W as (W0 & W1 & W2 & W3 & W4 & W5 & _).
  inversion_clear IH as [|? ? I0 IH1]. inversion_clear IH1 as [|? ? I1 IH2]. inversion_clear IH2 as [|? ? I2 _].
  unfold reify_Pedigree_. cbn [reflect_Pedigree_ Pedigree_Ancestors Pedigree_Descendants Pedigree_Variants Pedigree_Commits Pedigree_Patches Pedigree_Notes]. fields_back; auto.
  - apply (vni_ptr _ _ _ (vni_slice _ _ _ vni_Commit)), W3.
  - apply (vni_ptr _ _ _ (vni_slice _ _ _ vni_Patch)), W4.
  - apply vni_str, W5.
Qed.

Lemma kind_ExternalReference : kind_of (TRef "ExternalReference") = KStruct fields_ExternalReference. Proof. reflexivity. Qed.
Lemma wt_ExternalReference_inv v : wt (TRef "ExternalReference") v -> exists vs, v = VStruct vs /\ zip_all (fun f x => wt (f_ty f) x) vs fields_ExternalReference.
Proof.
  intros W. destruct v; cbn [wt] in W; rewrite kind_ExternalReference in W; try discriminate; try contradiction. eauto.
Qed.
Lemma inv_ExternalReference : inv reify_ExternalReference reflect_ExternalReference.
Proof. intros x; unfold reify_ExternalReference; cbn [reflect_ExternalReference]; rr; destruct x; reflexivity. Qed.
Lemma typed_ExternalReference : typed (TRef "ExternalReference") reify_ExternalReference.
Proof.
  intros x; unfold reify_ExternalReference; cbn [wt]; rewrite kind_ExternalReference; unfold fields_ExternalReference; cbn [zip_all f_ty]; fields_typed;
    match goal with |- wt ?t (?f ?x) => apply (ltac:(auto 8 with reify) : typed t f) end.
Qed.
Lemma vni_ExternalReference : vni (TRef "ExternalReference") reify_ExternalReference reflect_ExternalReference.
Proof.
  intros v W.
  apply wt_ExternalReference_inv in W as (vs & -> & W). unfold fields_ExternalReference in W.
  destruct vs as [|a0 vs]; [destruct W|]. destruct W as [W0 W]. cbn [f_ty] in W0.
  destruct vs as [|a1 vs]; [destruct W|]. destruct W as [W1 W]. cbn [f_ty] in W1.
  destruct vs as [|a2 vs]; [destruct W|]. destruct W as [W2 W]. cbn [f_ty] in W2.
  destruct vs as [|a3 vs]; [destruct W|]. destruct W as [W3 W]. cbn [f_ty] in W3.
  destruct vs as [|a4 vs]; [destruct W|]. destruct W as [W4 W]. cbn [f_ty] in W4.
  destruct vs as [|? ?]; [clear W|destruct W].
  cbn [reflect_ExternalReference]. unfold reify_ExternalReference. cbn [ExternalReference_URL ExternalReference_Comment ExternalReference_Hashes ExternalReference_Type ExternalReference_Properties]. fields_back.
  - match goal with |- ?f (?g ?v) = _ => match type of W0 with wt ?t _ => exact ((ltac:(auto 8 with reify) : vni t f g) v W0) end end.
  - match goal with |- ?f (?g ?v) = _ => match type of W1 with wt ?t _ => exact ((ltac:(auto 8 with reify) : vni t f g) v W1) end end.
  - match goal with |- ?f (?g ?v) = _ => match type of W2 with wt ?t _ => exact ((ltac:(auto 8 with reify) : vni t f g) v W2) end end.
  - match goal with |- ?f (?g ?v) = _ => match type of W3 with wt ?t _ => exact ((ltac:(auto 8 with reify) : vni t f g) v W3) end end.
  - match goal with |- ?f (?g ?v) = _ => match type of W4 with wt ?t _ => exact ((ltac:(auto 8 with reify) : vni t f g) v W4) end end.
Qed.
#[export] Hint Resolve inv_ExternalReference typed_ExternalReference vni_ExternalReference : reify.

Lemma kind_EvidenceIdentityMethod : kind_of (TRef "EvidenceIdentityMethod") = KStruct fields_EvidenceIdentityMethod. Proof. reflexivity. Qed.
Lemma wt_EvidenceIdentityMethod_inv v : wt (TRef "EvidenceIdentityMethod") v -> exists vs, v = VStruct vs /\ zip_all (fun f x => wt (f_ty f) x) vs fields_EvidenceIdentityMethod.
Proof.
  intros W. destruct v; cbn [wt] in W; rewrite kind_EvidenceIdentityMethod in W; try discriminate; try contradiction. eauto.
Qed.
Lemma inv_EvidenceIdentityMethod : inv reify_EvidenceIdentityMethod reflect_EvidenceIdentityMethod.
Proof. intros x; unfold reify_EvidenceIdentityMethod; cbn [reflect_EvidenceIdentityMethod]; rr; destruct x; reflexivity. Qed.
Lemma typed_EvidenceIdentityMethod : typed (TRef "EvidenceIdentityMethod") reify_EvidenceIdentityMethod.
Proof.
  intros x; unfold reify_EvidenceIdentityMethod; cbn [wt]; rewrite kind_EvidenceIdentityMethod; unfold fields_EvidenceIdentityMethod; cbn [zip_all f_ty]; fields_typed;
    match goal with |- wt ?t (?f ?x) => apply (ltac:(auto 8 with reify) : typed t f) end.
Qed.
Lemma vni_EvidenceIdentityMethod : vni (TRef "EvidenceIdentityMethod") reify_EvidenceIdentityMethod reflect_EvidenceIdentityMethod.
Proof.
  intros v W.
  apply wt_EvidenceIdentityMethod_inv in W as (vs & -> & W). unfold fields_EvidenceIdentityMethod in W.
  destruct vs as [|a0 vs]; [destruct W|]. destruct W as [W0 W]. cbn [f_ty] in W0.
  destruct vs as [|a1 vs]; [destruct W|]. destruct W as [W1 W]. cbn [f_ty] in W1.
  destruct vs as [|a2 vs]; [destruct W|]. destruct W as [W2 W]. cbn [f_ty] in W2.
  destruct vs as [|? ?]; [clear W|destruct W].
  cbn [reflect_EvidenceIdentityMethod]. unfold reify_EvidenceIdentityMethod. cbn [EvidenceIdentityMethod_Technique EvidenceIdentityMethod_Confidence EvidenceIdentityMethod_Value]. fields_back.
  - match goal with |- ?f (?g ?v) = _ => match type of W0 with wt ?t _ => exact ((ltac:(auto 8 with reify) : vni t f g) v W0) end end.
  - match goal with |- ?f (?g ?v) = _ => match type of W1 with wt ?t _ => exact ((ltac:(auto 8 with reify) : vni t f g) v W1) end end.
  - match goal with |- ?f (?g ?v) = _ => match type of W2 with wt ?t _ => exact ((ltac:(auto 8 with reify) : vni t f g) v W2) end end.
Qed.
#[export] Hint Resolve inv_EvidenceIdentityMethod typed_EvidenceIdentityMethod vni_EvidenceIdentityMethod : reify.

Lemma kind_EvidenceIdentity : kind_of (TRef "EvidenceIdentity") = KStruct fields_EvidenceIdentity. Proof. reflexivity. Qed.
Lemma wt_EvidenceIdentity_inv v : wt (TRef "EvidenceIdentity") v -> exists vs, v = VStruct vs /\ zip_all (fun f x => wt (f_ty f) x) vs fields_EvidenceIdentity.
Proof.
  intros W. destruct v; cbn [wt] in W; rewrite kind_EvidenceIdentity in W; try discriminate; try contradiction. eauto.
Qed.
Lemma inv_EvidenceIdentity : inv reify_EvidenceIdentity reflect_EvidenceIdentity.
Proof. intros x; unfold reify_EvidenceIdentity; cbn [reflect_EvidenceIdentity]; rr; destruct x; reflexivity. Qed.
Lemma typed_EvidenceIdentity : typed (TRef "EvidenceIdentity") reify_EvidenceIdentity.
Proof.
  intros x; unfold reify_EvidenceIdentity; cbn [wt]; rewrite kind_EvidenceIdentity; unfold fields_EvidenceIdentity; cbn [zip_all f_ty]; fields_typed;
    match goal with |- wt ?t (?f ?x) => apply (ltac:(auto 8 with reify) : typed t f) end.
Qed.
Lemma vni_EvidenceIdentity : vni (TRef "EvidenceIdentity") reify_EvidenceIdentity reflect_EvidenceIdentity.
Proof.
  intros v W.
  apply wt_EvidenceIdentity_inv in W as (vs & -> & W). unfold fields_EvidenceIdentity in W.
  destruct vs as [|a0 vs]; [destruct W|]. destruct W as [W0 W]. cbn [f_ty] in W0.
  destruct vs as [|a1 vs]; [destruct W|]. destruct W as [W1 W]. cbn [f_ty] in W1.
  destruct vs as [|a2 vs]; [destruct W|]. destruct W as [W2 W]. cbn [f_ty] in W2.
  destruct vs as [|a3 vs]; [destruct W|]. destruct W as [W3 W]. cbn [f_ty] in W3.
  destruct vs as [|a4 vs]; [destruct W|]. destruct W as [W4 W]. cbn [f_ty] in W4.
  destruct vs as [|? ?]; [clear W|destruct W].
  cbn [reflect_EvidenceIdentity]. unfold reify_EvidenceIdentity. cbn [EvidenceIdentity_Field EvidenceIdentity_Confidence EvidenceIdentity_ConcludedValue EvidenceIdentity_Methods EvidenceIdentity_Tools]. fields_back.
  - match goal with |- ?f (?g ?v) = _ => match type of W0 with wt ?t _ => exact ((ltac:(auto 8 with reify) : vni t f g) v W0) end end.
  - match goal with |- ?f (?g ?v) = _ => match type of W1 with wt ?t _ => exact ((ltac:(auto 8 with reify) : vni t f g) v W1) end end.
  - match goal with |- ?f (?g ?v) = _ => match type of W2 with wt ?t _ => exact ((ltac:(auto 8 with reify) : vni t f g) v W2) end end.
  - match goal with |- ?f (?g ?v) = _ => match type of W3 with wt ?t _ => exact ((ltac:(auto 8 with reify) : vni t f g) v W3) end end.
  - match goal with |- ?f (?g ?v) = _ => match type of W4 with wt ?t _ => exact ((ltac:(auto 8 with reify) : vni t f g) v W4) end end.
Qed.
#[export] Hint Resolve inv_EvidenceIdentity typed_EvidenceIdentity vni_EvidenceIdentity : reify.

Lemma kind_EvidenceIdentityChoice : kind_of (TRef "EvidenceIdentityChoice") = KStruct fields_EvidenceIdentityChoice. Proof. reflexivity. Qed.
Lemma wt_EvidenceIdentityChoice_inv v : wt (TRef "EvidenceIdentityChoice") v -> exists vs, v = VStruct vs /\ zip_all (fun f x => wt (f_ty f) x) vs fields_EvidenceIdentityChoice.
Proof.
  intros W. destruct v; cbn [wt] in W; rewrite kind_EvidenceIdentityChoice in W; try discriminate; try contradiction. eauto.
Qed.
Lemma inv_EvidenceIdentityChoice : inv reify_EvidenceIdentityChoice reflect_EvidenceIdentityChoice.
Proof. intros x; unfold reify_EvidenceIdentityChoice; cbn [reflect_EvidenceIdentityChoice]; rr; destruct x; reflexivity. Qed.
Lemma typed_EvidenceIdentityChoice : typed (TRef "EvidenceIdentityChoice") reify_EvidenceIdentityChoice.
Proof.
  intros x; unfold reify_EvidenceIdentityChoice; cbn [wt]; rewrite kind_EvidenceIdentityChoice; unfold fields_EvidenceIdentityChoice; cbn [zip_all f_ty]; fields_typed;
    match goal with |- wt ?t (?f ?x) => apply (ltac:(auto 8 with reify) : typed t f) end.
Qed.
Lemma vni_EvidenceIdentityChoice : vni (TRef "EvidenceIdentityChoice") reify_EvidenceIdentityChoice reflect_EvidenceIdentityChoice.
Proof.
  intros v W.
  apply wt_EvidenceIdentityChoice_inv in W as (vs & -> & W). unfold fields_EvidenceIdentityChoice in W.
  destruct vs as [|a0 vs]; [destruct W|]. destruct W as [W0 W]. cbn [f_ty] in W0.
  destruct vs as [|a1 vs]; [destruct W|]. destruct W as [W1 W]. cbn [f_ty] in W1.
  destruct vs as [|? ?]; [clear W|destruct W].
  cbn [reflect_EvidenceIdentityChoice]. unfold reify_EvidenceIdentityChoice. cbn [EvidenceIdentityChoice_Identity EvidenceIdentityChoice_Identities]. fields_back.
  - match goal with |- ?f (?g ?v) = _ => match type of W0 with wt ?t _ => exact ((ltac:(auto 8 with reify) : vni t f g) v W0) end end.
  - match goal with |- ?f (?g ?v) = _ => match type of W1 with wt ?t _ => exact ((ltac:(auto 8 with reify) : vni t f g) v W1) end end.
Qed.
#[export] Hint Resolve inv_EvidenceIdentityChoice typed_EvidenceIdentityChoice vni_EvidenceIdentityChoice : reify.

Lemma kind_EvidenceOccurrence : kind_of (TRef "EvidenceOccurrence") = KStruct fields_EvidenceOccurrence. Proof. reflexivity. Qed.
Lemma wt_EvidenceOccurrence_inv v : wt (TRef "EvidenceOccurrence") v -> exists vs, v = VStruct vs /\ zip_all (fun f x => wt (f_ty f) x) vs fields_EvidenceOccurrence.
Proof.
  intros W. destruct v; cbn [wt] in W; rewrite kind_EvidenceOccurrence in W; try discriminate; try contradiction. eauto.
Qed.
Lemma inv_EvidenceOccurrence : inv reify_EvidenceOccurrence reflect_EvidenceOccurrence.
Proof. intros x; unfold reify_EvidenceOccurrence; cbn [reflect_EvidenceOccurrence]; rr; destruct x; reflexivity. Qed.
Lemma typed_EvidenceOccurrence : typed (TRef "EvidenceOccurrence") reify_EvidenceOccurrence.
Proof.
  intros x; unfold reify_EvidenceOccurrence; cbn [wt]; rewrite kind_EvidenceOccurrence; unfold fields_EvidenceOccurrence; cbn [zip_all f_ty]; fields_typed;
    match goal with |- wt ?t (?f ?x) => apply (ltac:(auto 8 with reify) : typed t f) end.
Qed.
Lemma vni_EvidenceOccurrence : vni (TRef "EvidenceOccurrence") reify_EvidenceOccurrence reflect_EvidenceOccurrence.
Proof.
  intros v W.
  apply wt_EvidenceOccurrence_inv in W as (vs & -> & W). unfold fields_EvidenceOccurrence in W.
  destruct vs as [|a0 vs]; [destruct W|]. destruct W as [W0 W]. cbn [f_ty] in W0.
  destruct vs as [|a1 vs]; [destruct W|]. destruct W as [W1 W]. cbn [f_ty] in W1.
  destruct vs as [|a2 vs]; [destruct W|]. destruct W as [W2 W]. cbn [f_ty] in W2.
  destruct vs as [|a3 vs]; [destruct W|]. destruct W as [W3 W]. cbn [f_ty] in W3.
  destruct vs as [|a4 vs]; [destruct W|]. destruct W as [W4 W]. cbn [f_ty] in W4.
  destruct vs as [|a5 vs]; [destruct W|]. destruct W as [W5 W]. cbn [f_ty] in W5.
  destruct vs as [|? ?]; [clear W|destruct W].
  cbn [reflect_EvidenceOccurrence]. unfold reify_EvidenceOccurrence. cbn [EvidenceOccurrence_BOMRef EvidenceOccurrence_Location EvidenceOccurrence_Line EvidenceOccurrence_Offset EvidenceOccurrence_Symbol EvidenceOccurrence_AdditionalContext]. fields_back.
  - match goal with |- ?f (?g ?v) = _ => match type of W0 with wt ?t _ => exact ((ltac:(auto 8 with reify) : vni t f g) v W0) end end.
  - match goal with |- ?f (?g ?v) = _ => match type of W1 with wt ?t _ => exact ((ltac:(auto 8 with reify) : vni t f g) v W1) end end.
  - match goal with |- ?f (?g ?v) = _ => match type of W2 with wt ?t _ => exact ((ltac:(auto 8 with reify) : vni t f g) v W2) end end.
  - match goal with |- ?f (?g ?v) = _ => match type of W3 with wt ?t _ => exact ((ltac:(auto 8 with reify) : vni t f g) v W3) end end.
  - match goal with |- ?f (?g ?v) = _ => match type of W4 with wt ?t _ => exact ((ltac:(auto 8 with reify) : vni t f g) v W4) end end.
  - match goal with |- ?f (?g ?v) = _ => match type of W5 with wt ?t _ => exact ((ltac:(auto 8 with reify) : vni t f g) v W5) end end.
Qed.
#[export] Hint Resolve inv_EvidenceOccurrence typed_EvidenceOccurrence vni_EvidenceOccurrence : reify.

Lemma kind_CallstackFrame : kind_of (TRef "CallstackFrame") = KStruct fields_CallstackFrame. Proof. reflexivity. Qed.
Lemma wt_CallstackFrame_inv v : wt (TRef "CallstackFrame") v -> exists vs, v = VStruct vs /\ zip_all (fun f x => wt (f_ty f) x) vs fields_CallstackFrame.
Proof.
  intros W. destruct v; cbn [wt] in W; rewrite kind_CallstackFrame in W; try discriminate; try contradiction. eauto.
Qed.
Lemma inv_CallstackFrame : inv reify_CallstackFrame reflect_CallstackFrame.
Proof. intros x; unfold reify_CallstackFrame; cbn [reflect_CallstackFrame]; rr; destruct x; reflexivity. Qed.
Lemma typed_CallstackFrame : typed (TRef "CallstackFrame") reify_CallstackFrame.
Proof.
  intros x; unfold reify_CallstackFrame; cbn [wt]; rewrite kind_CallstackFrame; unfold fields_CallstackFrame; cbn [zip_all f_ty]; fields_typed;
    match goal with |- wt ?t (?f ?x) => apply (ltac:(auto 8 with reify) : typed t f) end.
Qed.
Lemma vni_CallstackFrame : vni (TRef "CallstackFrame") reify_CallstackFrame reflect_CallstackFrame.
Proof.
  intros v W.
  apply wt_CallstackFrame_inv in W as (vs & -> & W). unfold fields_CallstackFrame in W.
  destruct vs as [|a0 vs]; [destruct W|]. destruct W as [W0 W]. cbn [f_ty] in W0.
  destruct vs as [|a1 vs]; [destruct W|]. destruct W as [W1 W]. cbn [f_ty] in W1.
  destruct vs as [|a2 vs]; [destruct W|]. destruct W as [W2 W]. cbn [f_ty] in W2.
  destruct vs as [|a3 vs]; [destruct W|]. destruct W as [W3 W]. cbn [f_ty] in W3.
  destruct vs as [|a4 vs]; [destruct W|]. destruct W as [W4 W]. cbn [f_ty] in W4.
  destruct vs as [|a5 vs]; [destruct W|]. destruct W as [W5 W]. cbn [f_ty] in W5.
  destruct vs as [|a6 vs]; [destruct W|]. destruct W as [W6 W]. cbn [f_ty] in W6.
  destruct vs as [|? ?]; [clear W|destruct W].
  cbn [reflect_CallstackFrame]. unfold reify_CallstackFrame. cbn [CallstackFrame_Package CallstackFrame_Module CallstackFrame_Function CallstackFrame_Parameters CallstackFrame_Line CallstackFrame_Column CallstackFrame_FullFilename]. fields_back.
  - match goal with |- ?f (?g ?v) = _ => match type of W0 with wt ?t _ => exact ((ltac:(auto 8 with reify) : vni t f g) v W0) end end.
  - match goal with |- ?f (?g ?v) = _ => match type of W1 with wt ?t _ => exact ((ltac:(auto 8 with reify) : vni t f g) v W1) end end.
  - match goal with |- ?f (?g ?v) = _ => match type of W2 with wt ?t _ => exact ((ltac:(auto 8 with reify) : vni t f g) v W2) end end.
  - match goal with |- ?f (?g ?v) = _ => match type of W3 with wt ?t _ => exact ((ltac:(auto 8 with reify) : vni t f g) v W3) end end.
  - match goal with |- ?f (?g ?v) = _ => match type of W4 with wt ?t _ => exact ((ltac:(auto 8 with reify) : vni t f g) v W4) end end.
  - match goal with |- ?f (?g ?v) = _ => match type of W5 with wt ?t _ => exact ((ltac:(auto 8 with reify) : vni t f g) v W5) end end.
  - match goal with |- ?f (?g ?v) = _ => match type of W6 with wt ?t _ => exact ((ltac:(auto 8 with reify) : vni t f g) v W6) end end.
Qed.
#[export] Hint Resolve inv_CallstackFrame typed_CallstackFrame vni_CallstackFrame : reify.

Lemma kind_Callstack : kind_of (TRef "Callstack") = KStruct fields_Callstack. Proof. reflexivity. Qed.
Lemma wt_Callstack_inv v : wt (TRef "Callstack") v -> exists vs, v = VStruct vs /\ zip_all (fun f x => wt (f_ty f) x) vs fields_Callstack.
Proof.
  intros W. destruct v; cbn [wt] in W; rewrite kind_Callstack in W; try discriminate; try contradiction. eauto.
Qed.
Lemma inv_Callstack : inv reify_Callstack reflect_Callstack.
Proof. intros x; unfold reify_Callstack; cbn [reflect_Callstack]; rr; destruct x; reflexivity. Qed.
Lemma typed_Callstack : typed (TRef "Callstack") reify_Callstack.
Proof.
  intros x; unfold reify_Callstack; cbn [wt]; rewrite kind_Callstack; unfold fields_Callstack; cbn [zip_all f_ty]; fields_typed;
    match goal with |- wt ?t (?f ?x) => apply (ltac:(auto 8 with reify) : typed t f) end.
Qed.
Lemma vni_Callstack : vni (TRef "Callstack") reify_Callstack reflect_Callstack.
Proof.
  intros v W.
  apply wt_Callstack_inv in W as (vs & -> & W). unfold fields_Callstack in W.
  destruct vs as [|a0 vs]; [destruct W|]. destruct W as [W0 W]. cbn [f_ty] in W0.
  destruct vs as [|? ?]; [clear W|destruct W].
  cbn [reflect_Callstack]. unfold reify_Callstack. cbn [Callstack_Frames]. fields_back.
  - match goal with |- ?f (?g ?v) = _ => match type of W0 with wt ?t _ => exact ((ltac:(auto 8 with reify) : vni t f g) v W0) end end.
Qed.
#[export] Hint Resolve inv_Callstack typed_Callstack vni_Callstack : reify.

Lemma kind_Copyright : kind_of (TRef "Copyright") = KStruct fields_Copyright. Proof. reflexivity. Qed.
Lemma wt_Copyright_inv v : wt (TRef "Copyright") v -> exists vs, v = VStruct vs /\ zip_all (fun f x => wt (f_ty f) x) vs fields_Copyright.
Proof.
  intros W. destruct v; cbn [wt] in W; rewrite kind_Copyright in W; try discriminate; try contradiction. eauto.
Qed.
Lemma inv_Copyright : inv reify_Copyright reflect_Copyright.
Proof. intros x; unfold reify_Copyright; cbn [reflect_Copyright]; rr; destruct x; reflexivity. Qed.
Lemma typed_Copyright : typed (TRef "Copyright") reify_Copyright.
Proof.
  intros x; unfold reify_Copyright; cbn [wt]; rewrite kind_Copyright; unfold fields_Copyright; cbn [zip_all f_ty]; fields_typed;
    match goal with |- wt ?t (?f ?x) => apply (ltac:(auto 8 with reify) : typed t f) end.
Qed.
Lemma vni_Copyright : vni (TRef "Copyright") reify_Copyright reflect_Copyright.
Proof.
  intros v W.
  apply wt_Copyright_inv in W as (vs & -> & W). unfold fields_Copyright in W.
  destruct vs as [|a0 vs]; [destruct W|]. destruct W as [W0 W]. cbn [f_ty] in W0.
  destruct vs as [|? ?]; [clear W|destruct W].
  cbn [reflect_Copyright]. unfold reify_Copyright. cbn [Copyright_Text]. fields_back.
  - match goal with |- ?f (?g ?v) = _ => match type of W0 with wt ?t _ => exact ((ltac:(auto 8 with reify) : vni t f g) v W0) end end.
Qed.
#[export] Hint Resolve inv_Copyright typed_Copyright vni_Copyright : reify.

Lemma kind_Evidence : kind_of (TRef "Evidence") = KStruct fields_Evidence. Proof. reflexivity. Qed.
Lemma wt_Evidence_inv v : wt (TRef "Evidence") v -> exists vs, v = VStruct vs /\ zip_all (fun f x => wt (f_ty f) x) vs fields_Evidence.
Proof.
  intros W. destruct v; cbn [wt] in W; rewrite kind_Evidence in W; try discriminate; try contradiction. eauto.
Qed.
Lemma inv_Evidence : inv reify_Evidence reflect_Evidence.
Proof. intros x; unfold reify_Evidence; cbn [reflect_Evidence]; rr; destruct x; reflexivity. Qed.
Lemma typed_Evidence : typed (TRef "Evidence") reify_Evidence.
Proof.
  intros x; unfold reify_Evidence; cbn [wt]; rewrite kind_Evidence; unfold fields_Evidence; cbn [zip_all f_ty]; fields_typed;
    match goal with |- wt ?t (?f ?x) => apply (ltac:(auto 8 with reify) : typed t f) end.
Qed.
Lemma vni_Evidence : vni (TRef "Evidence") reify_Evidence reflect_Evidence.
Proof.
  intros v W.
  apply wt_Evidence_inv in W as (vs & -> & W). unfold fields_Evidence in W.
  destruct vs as [|a0 vs]; [destruct W|]. destruct W as [W0 W]. cbn [f_ty] in W0.
  destruct vs as [|a1 vs]; [destruct W|]. destruct W as [W1 W]. cbn [f_ty] in W1.
  destruct vs as [|a2 vs]; [destruct W|]. destruct W as [W2 W]. cbn [f_ty] in W2.
  destruct vs as [|a3 vs]; [destruct W|]. destruct W as [W3 W]. cbn [f_ty] in W3.
  destruct vs as [|a4 vs]; [destruct W|]. destruct W as [W4 W]. cbn [f_ty] in W4.
  destruct vs as [|? ?]; [clear W|destruct W].
  cbn [reflect_Evidence]. unfold reify_Evidence. cbn [Evidence_Identity Evidence_Occurrences Evidence_Callstack Evidence_Licenses Evidence_Copyright]. fields_back.
  - match goal with |- ?f (?g ?v) = _ => match type of W0 with wt ?t _ => exact ((ltac:(auto 8 with reify) : vni t f g) v W0) end end.
  - match goal with |- ?f (?g ?v) = _ => match type of W1 with wt ?t _ => exact ((ltac:(auto 8 with reify) : vni t f g) v W1) end end.
  - match goal with |- ?f (?g ?v) = _ => match type of W2 with wt ?t _ => exact ((ltac:(auto 8 with reify) : vni t f g) v W2) end end.
  - match goal with |- ?f (?g ?v) = _ => match type of W3 with wt ?t _ => exact ((ltac:(auto 8 with reify) : vni t f g) v W3) end end.
  - match goal with |- ?f (?g ?v) = _ => match type of W4 with wt ?t _ => exact ((ltac:(auto 8 with reify) : vni t f g) v W4) end end.
Qed.
#[export] Hint Resolve inv_Evidence typed_Evidence vni_Evidence : reify.

Lemma kind_Note : kind_of (TRef "Note") = KStruct fields_Note. Proof. reflexivity. Qed.
Lemma wt_Note_inv v : wt (TRef "Note") v -> exists vs, v = VStruct vs /\ zip_all (fun f x => wt (f_ty f) x) vs fields_Note.
Proof.
  intros W. destruct v; cbn [wt] in W; rewrite kind_Note in W; try discriminate; try contradiction. eauto.
Qed.
Lemma inv_Note : inv reify_Note reflect_Note.
Proof. intros x; unfold reify_Note; cbn [reflect_Note]; rr; destruct x; reflexivity. Qed.
Lemma typed_Note : typed (TRef "Note") reify_Note.
Proof.
  intros x; unfold reify_Note; cbn [wt]; rewrite kind_Note; unfold fields_Note; cbn [zip_all f_ty]; fields_typed;
    match goal with |- wt ?t (?f ?x) => apply (ltac:(auto 8 with reify) : typed t f) end.
Qed.
Lemma vni_Note : vni (TRef "Note") reify_Note reflect_Note.
Proof.
  intros v W.
  apply wt_Note_inv in W as (vs & -> & W). unfold fields_Note in W.
  destruct vs as [|a0 vs]; [destruct W|]. destruct W as [W0 W]. cbn [f_ty] in W0.
  destruct vs as [|a1 vs]; [destruct W|]. destruct W as [W1 W]. cbn [f_ty] in W1.
  destruct vs as [|? ?]; [clear W|destruct W].
  cbn [reflect_Note]. unfold reify_Note. cbn [Note_Locale Note_Text]. fields_back.
  - match goal with |- ?f (?g ?v) = _ => match type of W0 with wt ?t _ => exact ((ltac:(auto 8 with reify) : vni t f g) v W0) end end.
  - match goal with |- ?f (?g ?v) = _ => match type of W1 with wt ?t _ => exact ((ltac:(auto 8 with reify) : vni t f g) v W1) end end.
Qed.
#[export] Hint Resolve inv_Note typed_Note vni_Note : reify.

Lemma kind_ReleaseNotes : kind_of (TRef "ReleaseNotes") = KStruct fields_ReleaseNotes. Proof. reflexivity. Qed.
Lemma wt_ReleaseNotes_inv v : wt (TRef "ReleaseNotes") v -> exists vs, v = VStruct vs /\ zip_all (fun f x => wt (f_ty f) x) vs fields_ReleaseNotes.
Proof.
  intros W. destruct v; cbn [wt] in W; rewrite kind_ReleaseNotes in W; try discriminate; try contradiction. eauto.
Qed.
Lemma inv_ReleaseNotes : inv reify_ReleaseNotes reflect_ReleaseNotes.
Proof. intros x; unfold reify_ReleaseNotes; cbn [reflect_ReleaseNotes]; rr; destruct x; reflexivity. Qed.
Lemma typed_ReleaseNotes : typed (TRef "ReleaseNotes") reify_ReleaseNotes.
Proof.
  intros x; unfold reify_ReleaseNotes; cbn [wt]; rewrite kind_ReleaseNotes; unfold fields_ReleaseNotes; cbn [zip_all f_ty]; fields_typed;
    match goal with |- wt ?t (?f ?x) => apply (ltac:(auto 8 with reify) : typed t f) end.
Qed.
Lemma vni_ReleaseNotes : vni (TRef "ReleaseNotes") reify_ReleaseNotes reflect_ReleaseNotes.
Proof.
  intros v W.
  apply wt_ReleaseNotes_inv in W as (vs & -> & W). unfold fields_ReleaseNotes in W.
  destruct vs as [|a0 vs]; [destruct W|]. destruct W as [W0 W]. cbn [f_ty] in W0.
  destruct vs as [|a1 vs]; [destruct W|]. destruct W as [W1 W]. cbn [f_ty] in W1.
  destruct vs as [|a2 vs]; [destruct W|]. destruct W as [W2 W]. cbn [f_ty] in W2.
  destruct vs as [|a3 vs]; [destruct W|]. destruct W as [W3 W]. cbn [f_ty] in W3.
  destruct vs as [|a4 vs]; [destruct W|]. destruct W as [W4 W]. cbn [f_ty] in W4.
  destruct vs as [|a5 vs]; [destruct W|]. destruct W as [W5 W]. cbn [f_ty] in W5.
  destruct vs as [|a6 vs]; [destruct W|]. destruct W as [W6 W]. cbn [f_ty] in W6.
  destruct vs as [|a7 vs]; [destruct W|]. destruct W as [W7 W]. cbn [f_ty] in W7.
  destruct vs as [|a8 vs]; [destruct W|]. destruct W as [W8 W]. cbn [f_ty] in W8.
  destruct vs as [|a9 vs]; [destruct W|]. destruct W as [W9 W]. cbn [f_ty] in W9.
  destruct vs as [|a10 vs]; [destruct W|]. destruct W as [W10 W]. cbn [f_ty] in W10.
  destruct vs as [|? ?]; [clear W|destruct W].
  cbn [reflect_ReleaseNotes]. unfold reify_ReleaseNotes. cbn [ReleaseNotes_Type ReleaseNotes_Title ReleaseNotes_FeaturedImage ReleaseNotes_SocialImage ReleaseNotes_Description ReleaseNotes_Timestamp ReleaseNotes_Aliases ReleaseNotes_Tags ReleaseNotes_Resolves ReleaseNotes_Notes ReleaseNotes_Properties]. fields_back.
  - match goal with |- ?f (?g ?v) = _ => match type of W0 with wt ?t _ => exact ((ltac:(auto 8 with reify) : vni t f g) v W0) end end.
  - match goal with |- ?f (?g ?v) = _ => match type of W1 with wt ?t _ => exact ((ltac:(auto 8 with reify) : vni t f g) v W1) end end.
  - match goal with |- ?f (?g ?v) = _ => match type of W2 with wt ?t _ => exact ((ltac:(auto 8 with reify) : vni t f g) v W2) end end.
  - match goal with |- ?f (?g ?v) = _ => match type of W3 with wt ?t _ => exact ((ltac:(auto 8 with reify) : vni t f g) v W3) end end.
  - match goal with |- ?f (?g ?v) = _ => match type of W4 with wt ?t _ => exact ((ltac:(auto 8 with reify) : vni t f g) v W4) end end.
  - match goal with |- ?f (?g ?v) = _ => match type of W5 with wt ?t _ => exact ((ltac:(auto 8 with reify) : vni t f g) v W5) end end.
  - match goal with |- ?f (?g ?v) = _ => match type of W6 with wt ?t _ => exact ((ltac:(auto 8 with reify) : vni t f g) v W6) end end.
  - match goal with |- ?f (?g ?v) = _ => match type of W7 with wt ?t _ => exact ((ltac:(auto 8 with reify) : vni t f g) v W7) end end.
  - match goal with |- ?f (?g ?v) = _ => match type of W8 with wt ?t _ => exact ((ltac:(auto 8 with reify) : vni t f g) v W8) end end.
  - match goal with |- ?f (?g ?v) = _ => match type of W9 with wt ?t _ => exact ((ltac:(auto 8 with reify) : vni t f g) v W9) end end.
  - match goal with |- ?f (?g ?v) = _ => match type of W10 with wt ?t _ => exact ((ltac:(auto 8 with reify) : vni t f g) v W10) end end.
Qed.
#[export] Hint Resolve inv_ReleaseNotes typed_ReleaseNotes vni_ReleaseNotes : reify.

Lemma kind_MLModelParametersApproach : kind_of (TRef "MLModelParametersApproach") = KStruct fields_MLModelParametersApproach. Proof. reflexivity. Qed.
Lemma wt_MLModelParametersApproach_inv v : wt (TRef "MLModelParametersApproach") v -> exists vs, v = VStruct vs /\ zip_all (fun f x => wt (f_ty f) x) vs fields_MLModelParametersApproach.
Proof.
  intros W. destruct v; cbn [wt] in W; rewrite kind_MLModelParametersApproach in W; try discriminate; try contradiction. eauto.
Qed.
Lemma inv_MLModelParametersApproach : inv reify_MLModelParametersApproach reflect_MLModelParametersApproach.
Proof. intros x; unfold reify_MLModelParametersApproach; cbn [reflect_MLModelParametersApproach]; rr; destruct x; reflexivity. Qed.
Lemma typed_MLModelParametersApproach : typed (TRef "MLModelParametersApproach") reify_MLModelParametersApproach.
Proof.
  intros x; unfold reify_MLModelParametersApproach; cbn [wt]; rewrite kind_MLModelParametersApproach; unfold fields_MLModelParametersApproach; cbn [zip_all f_ty]; fields_typed;
    match goal with |- wt ?t (?f ?x) => apply (ltac:(auto 8 with reify) : typed t f) end.
Qed.
Lemma vni_MLModelParametersApproach : vni (TRef "MLModelParametersApproach") reify_MLModelParametersApproach reflect_MLModelParametersApproach.
Proof.
  intros v W.
  apply wt_MLModelParametersApproach_inv in W as (vs & -> & W). unfold fields_MLModelParametersApproach in W.
  destruct vs as [|a0 vs]; [destruct W|]. destruct W as [W0 W]. cbn [f_ty] in W0.
  destruct vs as [|? ?]; [clear W|destruct W].
  cbn [reflect_MLModelParametersApproach]. unfold reify_MLModelParametersApproach. cbn [MLModelParametersApproach_Type]. fields_back.
  - match goal with |- ?f (?g ?v) = _ => match type of W0 with wt ?t _ => exact ((ltac:(auto 8 with reify) : vni t f g) v W0) end end.
Qed.
#[export] Hint Resolve inv_MLModelParametersApproach typed_MLModelParametersApproach vni_MLModelParametersApproach : reify.

Lemma kind_ComponentDataContents : kind_of (TRef "ComponentDataContents") = KStruct fields_ComponentDataContents. Proof. reflexivity. Qed.
Lemma wt_ComponentDataContents_inv v : wt (TRef "ComponentDataContents") v -> exists vs, v = VStruct vs /\ zip_all (fun f x => wt (f_ty f) x) vs fields_ComponentDataContents.
Proof.
  intros W. destruct v; cbn [wt] in W; rewrite kind_ComponentDataContents in W; try discriminate; try contradiction. eauto.
Qed.
Lemma inv_ComponentDataContents : inv reify_ComponentDataContents reflect_ComponentDataContents.
Proof. intros x; unfold reify_ComponentDataContents; cbn [reflect_ComponentDataContents]; rr; destruct x; reflexivity. Qed.
Lemma typed_ComponentDataContents : typed (TRef "ComponentDataContents") reify_ComponentDataContents.
Proof.
  intros x; unfold reify_ComponentDataContents; cbn [wt]; rewrite kind_ComponentDataContents; unfold fields_ComponentDataContents; cbn [zip_all f_ty]; fields_typed;
    match goal with |- wt ?t (?f ?x) => apply (ltac:(auto 8 with reify) : typed t f) end.
Qed.
Lemma vni_ComponentDataContents : vni (TRef "ComponentDataContents") reify_ComponentDataContents reflect_ComponentDataContents.
Proof.
  intros v W.
  apply wt_ComponentDataContents_inv in W as (vs & -> & W). unfold fields_ComponentDataContents in W.
  destruct vs as [|a0 vs]; [destruct W|]. destruct W as [W0 W]. cbn [f_ty] in W0.
  destruct vs as [|a1 vs]; [destruct W|]. destruct W as [W1 W]. cbn [f_ty] in W1.
  destruct vs as [|a2 vs]; [destruct W|]. destruct W as [W2 W]. cbn [f_ty] in W2.
  destruct vs as [|? ?]; [clear W|destruct W].
  cbn [reflect_ComponentDataContents]. unfold reify_ComponentDataContents. cbn [ComponentDataContents_Attachment ComponentDataContents_URL ComponentDataContents_Properties]. fields_back.
  - match goal with |- ?f (?g ?v) = _ => match type of W0 with wt ?t _ => exact ((ltac:(auto 8 with reify) : vni t f g) v W0) end end.
  - match goal with |- ?f (?g ?v) = _ => match type of W1 with wt ?t _ => exact ((ltac:(auto 8 with reify) : vni t f g) v W1) end end.
  - match goal with |- ?f (?g ?v) = _ => match type of W2 with wt ?t _ => exact ((ltac:(auto 8 with reify) : vni t f g) v W2) end end.
Qed.
#[export] Hint Resolve inv_ComponentDataContents typed_ComponentDataContents vni_ComponentDataContents : reify.

Lemma kind_ComponentDataGraphic : kind_of (TRef "ComponentDataGraphic") = KStruct fields_ComponentDataGraphic. Proof. reflexivity. Qed.
Lemma wt_ComponentDataGraphic_inv v : wt (TRef "ComponentDataGraphic") v -> exists vs, v = VStruct vs /\ zip_all (fun f x => wt (f_ty f) x) vs fields_ComponentDataGraphic.
Proof.
  intros W. destruct v; cbn [wt] in W; rewrite kind_ComponentDataGraphic in W; try discriminate; try contradiction. eauto.
Qed.
Lemma inv_ComponentDataGraphic : inv reify_ComponentDataGraphic reflect_ComponentDataGraphic.
Proof. intros x; unfold reify_ComponentDataGraphic; cbn [reflect_ComponentDataGraphic]; rr; destruct x; reflexivity. Qed.
Lemma typed_ComponentDataGraphic : typed (TRef "ComponentDataGraphic") reify_ComponentDataGraphic.
Proof.
  intros x; unfold reify_ComponentDataGraphic; cbn [wt]; rewrite kind_ComponentDataGraphic; unfold fields_ComponentDataGraphic; cbn [zip_all f_ty]; fields_typed;
    match goal with |- wt ?t (?f ?x) => apply (ltac:(auto 8 with reify) : typed t f) end.
Qed.
Lemma vni_ComponentDataGraphic : vni (TRef "ComponentDataGraphic") reify_ComponentDataGraphic reflect_ComponentDataGraphic.
Proof.
  intros v W.
  apply wt_ComponentDataGraphic_inv in W as (vs & -> & W). unfold fields_ComponentDataGraphic in W.
  destruct vs as [|a0 vs]; [destruct W|]. destruct W as [W0 W]. cbn [f_ty] in W0.
  destruct vs as [|a1 vs]; [destruct W|]. destruct W as [W1 W]. cbn [f_ty] in W1.
  destruct vs as [|? ?]; [clear W|destruct W].
  cbn [reflect_ComponentDataGraphic]. unfold reify_ComponentDataGraphic. cbn [ComponentDataGraphic_Name ComponentDataGraphic_Image]. fields_back.
  - match goal with |- ?f (?g ?v) = _ => match type of W0 with wt ?t _ => exact ((ltac:(auto 8 with reify) : vni t f g) v W0) end end.
  - match goal with |- ?f (?g ?v) = _ => match type of W1 with wt ?t _ => exact ((ltac:(auto 8 with reify) : vni t f g) v W1) end end.
Qed.
#[export] Hint Resolve inv_ComponentDataGraphic typed_ComponentDataGraphic vni_ComponentDataGraphic : reify.

Lemma kind_ComponentDataGraphics : kind_of (TRef "ComponentDataGraphics") = KStruct fields_ComponentDataGraphics. Proof. reflexivity. Qed.
Lemma wt_ComponentDataGraphics_inv v : wt (TRef "ComponentDataGraphics") v -> exists vs, v = VStruct vs /\ zip_all (fun f x => wt (f_ty f) x) vs fields_ComponentDataGraphics.
Proof.
  intros W. destruct v; cbn [wt] in W; rewrite kind_ComponentDataGraphics in W; try discriminate; try contradiction. eauto.
Qed.
Lemma inv_ComponentDataGraphics : inv reify_ComponentDataGraphics reflect_ComponentDataGraphics.
Proof. intros x; unfold reify_ComponentDataGraphics; cbn [reflect_ComponentDataGraphics]; rr; destruct x; reflexivity. Qed.
Lemma typed_ComponentDataGraphics : typed (TRef "ComponentDataGraphics") reify_ComponentDataGraphics.
Proof.
  intros x; unfold reify_ComponentDataGraphics; cbn [wt]; rewrite kind_ComponentDataGraphics; unfold fields_ComponentDataGraphics; cbn [zip_all f_ty]; fields_typed;
    match goal with |- wt ?t (?f ?x) => apply (ltac:(auto 8 with reify) : typed t f) end.
Qed.
Lemma vni_ComponentDataGraphics : vni (TRef "ComponentDataGraphics") reify_ComponentDataGraphics reflect_ComponentDataGraphics.
Proof.
  intros v W.
  apply wt_ComponentDataGraphics_inv in W as (vs & -> & W). unfold fields_ComponentDataGraphics in W.
  destruct vs as [|a0 vs]; [destruct W|]. destruct W as [W0 W]. cbn [f_ty] in W0.
  destruct vs as [|a1 vs]; [destruct W|]. destruct W as [W1 W]. cbn [f_ty] in W1.
  destruct vs as [|? ?]; [clear W|destruct W].
  cbn [reflect_ComponentDataGraphics]. unfold reify_ComponentDataGraphics. cbn [ComponentDataGraphics_Description ComponentDataGraphics_Collection]. fields_back.
  - match goal with |- ?f (?g ?v) = _ => match type of W0 with wt ?t _ => exact ((ltac:(auto 8 with reify) : vni t f g) v W0) end end.
  - match goal with |- ?f (?g ?v) = _ => match type of W1 with wt ?t _ => exact ((ltac:(auto 8 with reify) : vni t f g) v W1) end end.
Qed.
#[export] Hint Resolve inv_ComponentDataGraphics typed_ComponentDataGraphics vni_ComponentDataGraphics : reify.

Lemma kind_ComponentDataGovernanceResponsibleParty : kind_of (TRef "ComponentDataGovernanceResponsibleParty") = KStruct fields_ComponentDataGovernanceResponsibleParty. Proof. reflexivity. Qed.
Lemma wt_ComponentDataGovernanceResponsibleParty_inv v : wt (TRef "ComponentDataGovernanceResponsibleParty") v -> exists vs, v = VStruct vs /\ zip_all (fun f x => wt (f_ty f) x) vs fields_ComponentDataGovernanceResponsibleParty.
Proof.
  intros W. destruct v; cbn [wt] in W; rewrite kind_ComponentDataGovernanceResponsibleParty in W; try discriminate; try contradiction. eauto.
Qed.
Lemma inv_ComponentDataGovernanceResponsibleParty : inv reify_ComponentDataGovernanceResponsibleParty reflect_ComponentDataGovernanceResponsibleParty.
Proof. intros x; unfold reify_ComponentDataGovernanceResponsibleParty; cbn [reflect_ComponentDataGovernanceResponsibleParty]; rr; destruct x; reflexivity. Qed.
Lemma typed_ComponentDataGovernanceResponsibleParty : typed (TRef "ComponentDataGovernanceResponsibleParty") reify_ComponentDataGovernanceResponsibleParty.
Proof.
  intros x; unfold reify_ComponentDataGovernanceResponsibleParty; cbn [wt]; rewrite kind_ComponentDataGovernanceResponsibleParty; unfold fields_ComponentDataGovernanceResponsibleParty; cbn [zip_all f_ty]; fields_typed;
    match goal with |- wt ?t (?f ?x) => apply (ltac:(auto 8 with reify) : typed t f) end.
Qed.
Lemma vni_ComponentDataGovernanceResponsibleParty : vni (TRef "ComponentDataGovernanceResponsibleParty") reify_ComponentDataGovernanceResponsibleParty reflect_ComponentDataGovernanceResponsibleParty.
Proof.
  intros v W.
  apply wt_ComponentDataGovernanceResponsibleParty_inv in W as (vs & -> & W). unfold fields_ComponentDataGovernanceResponsibleParty in W.
  destruct vs as [|a0 vs]; [destruct W|]. destruct W as [W0 W]. cbn [f_ty] in W0.
  destruct vs as [|a1 vs]; [destruct W|]. destruct W as [W1 W]. cbn [f_ty] in W1.
  destruct vs as [|? ?]; [clear W|destruct W].
  cbn [reflect_ComponentDataGovernanceResponsibleParty]. unfold reify_ComponentDataGovernanceResponsibleParty. cbn [ComponentDataGovernanceResponsibleParty_Organization ComponentDataGovernanceResponsibleParty_Contact]. fields_back.
  - match goal with |- ?f (?g ?v) = _ => match type of W0 with wt ?t _ => exact ((ltac:(auto 8 with reify) : vni t f g) v W0) end end.
  - match goal with |- ?f (?g ?v) = _ => match type of W1 with wt ?t _ => exact ((ltac:(auto 8 with reify) : vni t f g) v W1) end end.
Qed.
#[export] Hint Resolve inv_ComponentDataGovernanceResponsibleParty typed_ComponentDataGovernanceResponsibleParty vni_ComponentDataGovernanceResponsibleParty : reify.

Lemma kind_DataGovernance : kind_of (TRef "DataGovernance") = KStruct fields_DataGovernance. Proof. reflexivity. Qed.
Lemma wt_DataGovernance_inv v : wt (TRef "DataGovernance") v -> exists vs, v = VStruct vs /\ zip_all (fun f x => wt (f_ty f) x) vs fields_DataGovernance.
Proof.
  intros W. destruct v; cbn [wt] in W; rewrite kind_DataGovernance in W; try discriminate; try contradiction. eauto.
Qed.
Lemma inv_DataGovernance : inv reify_DataGovernance reflect_DataGovernance.
Proof. intros x; unfold reify_DataGovernance; cbn [reflect_DataGovernance]; rr; destruct x; reflexivity. Qed.
Lemma typed_DataGovernance : typed (TRef "DataGovernance") reify_DataGovernance.
Proof.
  intros x; unfold reify_DataGovernance; cbn [wt]; rewrite kind_DataGovernance; unfold fields_DataGovernance; cbn [zip_all f_ty]; fields_typed;
    match goal with |- wt ?t (?f ?x) => apply (ltac:(auto 8 with reify) : typed t f) end.
Qed.
Lemma vni_DataGovernance : vni (TRef "DataGovernance") reify_DataGovernance reflect_DataGovernance.
Proof.
  intros v W.
  apply wt_DataGovernance_inv in W as (vs & -> & W). unfold fields_DataGovernance in W.
  destruct vs as [|a0 vs]; [destruct W|]. destruct W as [W0 W]. cbn [f_ty] in W0.
  destruct vs as [|a1 vs]; [destruct W|]. destruct W as [W1 W]. cbn [f_ty] in W1.
  destruct vs as [|a2 vs]; [destruct W|]. destruct W as [W2 W]. cbn [f_ty] in W2.
  destruct vs as [|? ?]; [clear W|destruct W].
  cbn [reflect_DataGovernance]. unfold reify_DataGovernance. cbn [DataGovernance_Custodians DataGovernance_Stewards DataGovernance_Owners]. fields_back.
  - match goal with |- ?f (?g ?v) = _ => match type of W0 with wt ?t _ => exact ((ltac:(auto 8 with reify) : vni t f g) v W0) end end.
  - match goal with |- ?f (?g ?v) = _ => match type of W1 with wt ?t _ => exact ((ltac:(auto 8 with reify) : vni t f g) v W1) end end.
  - match goal with |- ?f (?g ?v) = _ => match type of W2 with wt ?t _ => exact ((ltac:(auto 8 with reify) : vni t f g) v W2) end end.
Qed.
#[export] Hint Resolve inv_DataGovernance typed_DataGovernance vni_DataGovernance : reify.

Lemma kind_ComponentData : kind_of (TRef "ComponentData") = KStruct fields_ComponentData. Proof. reflexivity. Qed.
Lemma wt_ComponentData_inv v : wt (TRef "ComponentData") v -> exists vs, v = VStruct vs /\ zip_all (fun f x => wt (f_ty f) x) vs fields_ComponentData.
Proof.
  intros W. destruct v; cbn [wt] in W; rewrite kind_ComponentData in W; try discriminate; try contradiction. eauto.
Qed.
Lemma inv_ComponentData : inv reify_ComponentData reflect_ComponentData.
Proof. intros x; unfold reify_ComponentData; cbn [reflect_ComponentData]; rr; destruct x; reflexivity. Qed.
Lemma typed_ComponentData : typed (TRef "ComponentData") reify_ComponentData.
Proof.
  intros x; unfold reify_ComponentData; cbn [wt]; rewrite kind_ComponentData; unfold fields_ComponentData; cbn [zip_all f_ty]; fields_typed;
    match goal with |- wt ?t (?f ?x) => apply (ltac:(auto 8 with reify) : typed t f) end.
Qed.
Lemma vni_ComponentData : vni (TRef "ComponentData") reify_ComponentData reflect_ComponentData.
Proof.
  intros v W.
  apply wt_ComponentData_inv in W as (vs & -> & W). unfold fields_ComponentData in W.
  destruct vs as [|a0 vs]; [destruct W|]. destruct W as [W0 W]. cbn [f_ty] in W0.
  destruct vs as [|a1 vs]; [destruct W|]. destruct W as [W1 W]. cbn [f_ty] in W1.
  destruct vs as [|a2 vs]; [destruct W|]. destruct W as [W2 W]. cbn [f_ty] in W2.
  destruct vs as [|a3 vs]; [destruct W|]. destruct W as [W3 W]. cbn [f_ty] in W3.
  destruct vs as [|a4 vs]; [destruct W|]. destruct W as [W4 W]. cbn [f_ty] in W4.
  destruct vs as [|a5 vs]; [destruct W|]. destruct W as [W5 W]. cbn [f_ty] in W5.
  destruct vs as [|a6 vs]; [destruct W|]. destruct W as [W6 W]. cbn [f_ty] in W6.
  destruct vs as [|a7 vs]; [destruct W|]. destruct W as [W7 W]. cbn [f_ty] in W7.
  destruct vs as [|a8 vs]; [destruct W|]. destruct W as [W8 W]. cbn [f_ty] in W8.
  destruct vs as [|? ?]; [clear W|destruct W].
  cbn [reflect_ComponentData]. unfold reify_ComponentData. cbn [ComponentData_BOMRef ComponentData_Type ComponentData_Name ComponentData_Contents ComponentData_Classification ComponentData_SensitiveData ComponentData_Graphics ComponentData_Description ComponentData_Governance]. fields_back.
  - match goal with |- ?f (?g ?v) = _ => match type of W0 with wt ?t _ => exact ((ltac:(auto 8 with reify) : vni t f g) v W0) end end.
  - match goal with |- ?f (?g ?v) = _ => match type of W1 with wt ?t _ => exact ((ltac:(auto 8 with reify) : vni t f g) v W1) end end.
  - match goal with |- ?f (?g ?v) = _ => match type of W2 with wt ?t _ => exact ((ltac:(auto 8 with reify) : vni t f g) v W2) end end.
  - match goal with |- ?f (?g ?v) = _ => match type of W3 with wt ?t _ => exact ((ltac:(auto 8 with reify) : vni t f g) v W3) end end.
  - match goal with |- ?f (?g ?v) = _ => match type of W4 with wt ?t _ => exact ((ltac:(auto 8 with reify) : vni t f g) v W4) end end.
  - match goal with |- ?f (?g ?v) = _ => match type of W5 with wt ?t _ => exact ((ltac:(auto 8 with reify) : vni t f g) v W5) end end.
  - match goal with |- ?f (?g ?v) = _ => match type of W6 with wt ?t _ => exact ((ltac:(auto 8 with reify) : vni t f g) v W6) end end.
  - match goal with |- ?f (?g ?v) = _ => match type of W7 with wt ?t _ => exact ((ltac:(auto 8 with reify) : vni t f g) v W7) end end.
  - match goal with |- ?f (?g ?v) = _ => match type of W8 with wt ?t _ => exact ((ltac:(auto 8 with reify) : vni t f g) v W8) end end.
Qed.
#[export] Hint Resolve inv_ComponentData typed_ComponentData vni_ComponentData : reify.

Lemma kind_MLDatasetChoice : kind_of (TRef "MLDatasetChoice") = KStruct fields_MLDatasetChoice. Proof. reflexivity. Qed.
Lemma wt_MLDatasetChoice_inv v : wt (TRef "MLDatasetChoice") v -> exists vs, v = VStruct vs /\ zip_all (fun f x => wt (f_ty f) x) vs fields_MLDatasetChoice.
Proof.
  intros W. destruct v; cbn [wt] in W; rewrite kind_MLDatasetChoice in W; try discriminate; try contradiction. eauto.
Qed.
Lemma inv_MLDatasetChoice : inv reify_MLDatasetChoice reflect_MLDatasetChoice.
Proof. intros x; unfold reify_MLDatasetChoice; cbn [reflect_MLDatasetChoice]; rr; destruct x; reflexivity. Qed.
Lemma typed_MLDatasetChoice : typed (TRef "MLDatasetChoice") reify_MLDatasetChoice.
Proof.
  intros x; unfold reify_MLDatasetChoice; cbn [wt]; rewrite kind_MLDatasetChoice; unfold fields_MLDatasetChoice; cbn [zip_all f_ty]; fields_typed;
    match goal with |- wt ?t (?f ?x) => apply (ltac:(auto 8 with reify) : typed t f) end.
Qed.
Lemma vni_MLDatasetChoice : vni (TRef "MLDatasetChoice") reify_MLDatasetChoice reflect_MLDatasetChoice.
Proof.
  intros v W.
  apply wt_MLDatasetChoice_inv in W as (vs & -> & W). unfold fields_MLDatasetChoice in W.
  destruct vs as [|a0 vs]; [destruct W|]. destruct W as [W0 W]. cbn [f_ty] in W0.
  destruct vs as [|a1 vs]; [destruct W|]. destruct W as [W1 W]. cbn [f_ty] in W1.
  destruct vs as [|? ?]; [clear W|destruct W].
  cbn [reflect_MLDatasetChoice]. unfold reify_MLDatasetChoice. cbn [MLDatasetChoice_Ref MLDatasetChoice_ComponentData]. fields_back.
  - match goal with |- ?f (?g ?v) = _ => match type of W0 with wt ?t _ => exact ((ltac:(auto 8 with reify) : vni t f g) v W0) end end.
  - match goal with |- ?f (?g ?v) = _ => match type of W1 with wt ?t _ => exact ((ltac:(auto 8 with reify) : vni t f g) v W1) end end.
Qed.
#[export] Hint Resolve inv_MLDatasetChoice typed_MLDatasetChoice vni_MLDatasetChoice : reify.

Lemma kind_MLInputOutputParameters : kind_of (TRef "MLInputOutputParameters") = KStruct fields_MLInputOutputParameters. Proof. reflexivity. Qed.
Lemma wt_MLInputOutputParameters_inv v : wt (TRef "MLInputOutputParameters") v -> exists vs, v = VStruct vs /\ zip_all (fun f x => wt (f_ty f) x) vs fields_MLInputOutputParameters.
Proof.
  intros W. destruct v; cbn [wt] in W; rewrite kind_MLInputOutputParameters in W; try discriminate; try contradiction. eauto.
Qed.
Lemma inv_MLInputOutputParameters : inv reify_MLInputOutputParameters reflect_MLInputOutputParameters.
Proof. intros x; unfold reify_MLInputOutputParameters; cbn [reflect_MLInputOutputParameters]; rr; destruct x; reflexivity. Qed.
Lemma typed_MLInputOutputParameters : typed (TRef "MLInputOutputParameters") reify_MLInputOutputParameters.
Proof.
  intros x; unfold reify_MLInputOutputParameters; cbn [wt]; rewrite kind_MLInputOutputParameters; unfold fields_MLInputOutputParameters; cbn [zip_all f_ty]; fields_typed;
    match goal with |- wt ?t (?f ?x) => apply (ltac:(auto 8 with reify) : typed t f) end.
Qed.
Lemma vni_MLInputOutputParameters : vni (TRef "MLInputOutputParameters") reify_MLInputOutputParameters reflect_MLInputOutputParameters.
Proof.
  intros v W.
  apply wt_MLInputOutputParameters_inv in W as (vs & -> & W). unfold fields_MLInputOutputParameters in W.
  destruct vs as [|a0 vs]; [destruct W|]. destruct W as [W0 W]. cbn [f_ty] in W0.
  destruct vs as [|? ?]; [clear W|destruct W].
  cbn [reflect_MLInputOutputParameters]. unfold reify_MLInputOutputParameters. cbn [MLInputOutputParameters_Format]. fields_back.
  - match goal with |- ?f (?g ?v) = _ => match type of W0 with wt ?t _ => exact ((ltac:(auto 8 with reify) : vni t f g) v W0) end end.
Qed.
#[export] Hint Resolve inv_MLInputOutputParameters typed_MLInputOutputParameters vni_MLInputOutputParameters : reify.

Lemma kind_MLModelParameters : kind_of (TRef "MLModelParameters") = KStruct fields_MLModelParameters. Proof. reflexivity. Qed.
Lemma wt_MLModelParameters_inv v : wt (TRef "MLModelParameters") v -> exists vs, v = VStruct vs /\ zip_all (fun f x => wt (f_ty f) x) vs fields_MLModelParameters.
Proof.
  intros W. destruct v; cbn [wt] in W; rewrite kind_MLModelParameters in W; try discriminate; try contradiction. eauto.
Qed.
Lemma inv_MLModelParameters : inv reify_MLModelParameters reflect_MLModelParameters.
Proof. intros x; unfold reify_MLModelParameters; cbn [reflect_MLModelParameters]; rr; destruct x; reflexivity. Qed.
Lemma typed_MLModelParameters : typed (TRef "MLModelParameters") reify_MLModelParameters.
Proof.
  intros x; unfold reify_MLModelParameters; cbn [wt]; rewrite kind_MLModelParameters; unfold fields_MLModelParameters; cbn [zip_all f_ty]; fields_typed;
    match goal with |- wt ?t (?f ?x) => apply (ltac:(auto 8 with reify) : typed t f) end.
Qed.
Lemma vni_MLModelParameters : vni (TRef "MLModelParameters") reify_MLModelParameters reflect_MLModelParameters.
Proof.
  intros v W.
  apply wt_MLModelParameters_inv in W as (vs & -> & W). unfold fields_MLModelParameters in W.
  destruct vs as [|a0 vs]; [destruct W|]. destruct W as [W0 W]. cbn [f_ty] in W0.
  destruct vs as [|a1 vs]; [destruct W|]. destruct W as [W1 W]. cbn [f_ty] in W1.
  destruct vs as [|a2 vs]; [destruct W|]. destruct W as [W2 W]. cbn [f_ty] in W2.
  destruct vs as [|a3 vs]; [destruct W|]. destruct W as [W3 W]. cbn [f_ty] in W3.
  destruct vs as [|a4 vs]; [destruct W|]. destruct W as [W4 W]. cbn [f_ty] in W4.
  destruct vs as [|a5 vs]; [destruct W|]. destruct W as [W5 W]. cbn [f_ty] in W5.
  destruct vs as [|a6 vs]; [destruct W|]. destruct W as [W6 W]. cbn [f_ty] in W6.
  destruct vs as [|? ?]; [clear W|destruct W].
  cbn [reflect_MLModelParameters]. unfold reify_MLModelParameters. cbn [MLModelParameters_Approach MLModelParameters_Task MLModelParameters_ArchitectureFamily MLModelParameters_ModelArchitecture MLModelParameters_Datasets MLModelParameters_Inputs MLModelParameters_Outputs]. fields_back.
  - match goal with |- ?f (?g ?v) = _ => match type of W0 with wt ?t _ => exact ((ltac:(auto 8 with reify) : vni t f g) v W0) end end.
  - match goal with |- ?f (?g ?v) = _ => match type of W1 with wt ?t _ => exact ((ltac:(auto 8 with reify) : vni t f g) v W1) end end.
  - match goal with |- ?f (?g ?v) = _ => match type of W2 with wt ?t _ => exact ((ltac:(auto 8 with reify) : vni t f g) v W2) end end.
  - match goal with |- ?f (?g ?v) = _ => match type of W3 with wt ?t _ => exact ((ltac:(auto 8 with reify) : vni t f g) v W3) end end.
  - match goal with |- ?f (?g ?v) = _ => match type of W4 with wt ?t _ => exact ((ltac:(auto 8 with reify) : vni t f g) v W4) end end.
  - match goal with |- ?f (?g ?v) = _ => match type of W5 with wt ?t _ => exact ((ltac:(auto 8 with reify) : vni t f g) v W5) end end.
  - match goal with |- ?f (?g ?v) = _ => match type of W6 with wt ?t _ => exact ((ltac:(auto 8 with reify) : vni t f g) v W6) end end.
Qed.
#[export] Hint Resolve inv_MLModelParameters typed_MLModelParameters vni_MLModelParameters : reify.

Lemma kind_MLPerformanceMetricConfidenceInterval : kind_of (TRef "MLPerformanceMetricConfidenceInterval") = KStruct fields_MLPerformanceMetricConfidenceInterval. Proof. reflexivity. Qed.
Lemma wt_MLPerformanceMetricConfidenceInterval_inv v : wt (TRef "MLPerformanceMetricConfidenceInterval") v -> exists vs, v = VStruct vs /\ zip_all (fun f x => wt (f_ty f) x) vs fields_MLPerformanceMetricConfidenceInterval.
Proof.
  intros W. destruct v; cbn [wt] in W; rewrite kind_MLPerformanceMetricConfidenceInterval in W; try discriminate; try contradiction. eauto.
Qed.
Lemma inv_MLPerformanceMetricConfidenceInterval : inv reify_MLPerformanceMetricConfidenceInterval reflect_MLPerformanceMetricConfidenceInterval.
Proof. intros x; unfold reify_MLPerformanceMetricConfidenceInterval; cbn [reflect_MLPerformanceMetricConfidenceInterval]; rr; destruct x; reflexivity. Qed.
Lemma typed_MLPerformanceMetricConfidenceInterval : typed (TRef "MLPerformanceMetricConfidenceInterval") reify_MLPerformanceMetricConfidenceInterval.
Proof.
  intros x; unfold reify_MLPerformanceMetricConfidenceInterval; cbn [wt]; rewrite kind_MLPerformanceMetricConfidenceInterval; unfold fields_MLPerformanceMetricConfidenceInterval; cbn [zip_all f_ty]; fields_typed;
    match goal with |- wt ?t (?f ?x) => apply (ltac:(auto 8 with reify) : typed t f) end.
Qed.
Lemma vni_MLPerformanceMetricConfidenceInterval : vni (TRef "MLPerformanceMetricConfidenceInterval") reify_MLPerformanceMetricConfidenceInterval reflect_MLPerformanceMetricConfidenceInterval.
Proof.
  intros v W.
  apply wt_MLPerformanceMetricConfidenceInterval_inv in W as (vs & -> & W). unfold fields_MLPerformanceMetricConfidenceInterval in W.
  destruct vs as [|a0 vs]; [destruct W|]. destruct W as [W0 W]. cbn [f_ty] in W0.
  destruct vs as [|a1 vs]; [destruct W|]. destruct W as [W1 W]. cbn [f_ty] in W1.
  destruct vs as [|? ?]; [clear W|destruct W].
  cbn [reflect_MLPerformanceMetricConfidenceInterval]. unfold reify_MLPerformanceMetricConfidenceInterval. cbn [MLPerformanceMetricConfidenceInterval_LowerBound MLPerformanceMetricConfidenceInterval_UpperBound]. fields_back.
  - match goal with |- ?f (?g ?v) = _ => match type of W0 with wt ?t _ => exact ((ltac:(auto 8 with reify) : vni t f g) v W0) end end.
  - match goal with |- ?f (?g ?v) = _ => match type of W1 with wt ?t _ => exact ((ltac:(auto 8 with reify) : vni t f g) v W1) end end.
Qed.
#[export] Hint Resolve inv_MLPerformanceMetricConfidenceInterval typed_MLPerformanceMetricConfidenceInterval vni_MLPerformanceMetricConfidenceInterval : reify.

Lemma kind_MLPerformanceMetric : kind_of (TRef "MLPerformanceMetric") = KStruct fields_MLPerformanceMetric. Proof. reflexivity. Qed.
Lemma wt_MLPerformanceMetric_inv v : wt (TRef "MLPerformanceMetric") v -> exists vs, v = VStruct vs /\ zip_all (fun f x => wt (f_ty f) x) vs fields_MLPerformanceMetric.
Proof.
  intros W. destruct v; cbn [wt] in W; rewrite kind_MLPerformanceMetric in W; try discriminate; try contradiction. eauto.
Qed.
Lemma inv_MLPerformanceMetric : inv reify_MLPerformanceMetric reflect_MLPerformanceMetric.
Proof. intros x; unfold reify_MLPerformanceMetric; cbn [reflect_MLPerformanceMetric]; rr; destruct x; reflexivity. Qed.
Lemma typed_MLPerformanceMetric : typed (TRef "MLPerformanceMetric") reify_MLPerformanceMetric.
Proof.
  intros x; unfold reify_MLPerformanceMetric; cbn [wt]; rewrite kind_MLPerformanceMetric; unfold fields_MLPerformanceMetric; cbn [zip_all f_ty]; fields_typed;
    match goal with |- wt ?t (?f ?x) => apply (ltac:(auto 8 with reify) : typed t f) end.
Qed.
Lemma vni_MLPerformanceMetric : vni (TRef "MLPerformanceMetric") reify_MLPerformanceMetric reflect_MLPerformanceMetric.
Proof.
  intros v W.
  apply wt_MLPerformanceMetric_inv in W as (vs & -> & W). unfold fields_MLPerformanceMetric in W.
  destruct vs as [|a0 vs]; [destruct W|]. destruct W as [W0 W]. cbn [f_ty] in W0.
  destruct vs as [|a1 vs]; [destruct W|]. destruct W as [W1 W]. cbn [f_ty] in W1.
  destruct vs as [|a2 vs]; [destruct W|]. destruct W as [W2 W]. cbn [f_ty] in W2.
  destruct vs as [|a3 vs]; [destruct W|]. destruct W as [W3 W]. cbn [f_ty] in W3.
  destruct vs as [|? ?]; [clear W|destruct W].
  cbn [reflect_MLPerformanceMetric]. unfold reify_MLPerformanceMetric. cbn [MLPerformanceMetric_Type MLPerformanceMetric_Value MLPerformanceMetric_Slice MLPerformanceMetric_ConfidenceInterval]. fields_back.
  - match goal with |- ?f (?g ?v) = _ => match type of W0 with wt ?t _ => exact ((ltac:(auto 8 with reify) : vni t f g) v W0) end end.
  - match goal with |- ?f (?g ?v) = _ => match type of W1 with wt ?t _ => exact ((ltac:(auto 8 with reify) : vni t f g) v W1) end end.
  - match goal with |- ?f (?g ?v) = _ => match type of W2 with wt ?t _ => exact ((ltac:(auto 8 with reify) : vni t f g) v W2) end end.
  - match goal with |- ?f (?g ?v) = _ => match type of W3 with wt ?t _ => exact ((ltac:(auto 8 with reify) : vni t f g) v W3) end end.
Qed.
#[export] Hint Resolve inv_MLPerformanceMetric typed_MLPerformanceMetric vni_MLPerformanceMetric : reify.

Lemma kind_MLQuantitativeAnalysis : kind_of (TRef "MLQuantitativeAnalysis") = KStruct fields_MLQuantitativeAnalysis. Proof. reflexivity. Qed.
Lemma wt_MLQuantitativeAnalysis_inv v : wt (TRef "MLQuantitativeAnalysis") v -> exists vs, v = VStruct vs /\ zip_all (fun f x => wt (f_ty f) x) vs fields_MLQuantitativeAnalysis.
Proof.
  intros W. destruct v; cbn [wt] in W; rewrite kind_MLQuantitativeAnalysis in W; try discriminate; try contradiction. eauto.
Qed.
Lemma inv_MLQuantitativeAnalysis : inv reify_MLQuantitativeAnalysis reflect_MLQuantitativeAnalysis.
Proof. intros x; unfold reify_MLQuantitativeAnalysis; cbn [reflect_MLQuantitativeAnalysis]; rr; destruct x; reflexivity. Qed.
Lemma typed_MLQuantitativeAnalysis : typed (TRef "MLQuantitativeAnalysis") reify_MLQuantitativeAnalysis.
Proof.
  intros x; unfold reify_MLQuantitativeAnalysis; cbn [wt]; rewrite kind_MLQuantitativeAnalysis; unfold fields_MLQuantitativeAnalysis; cbn [zip_all f_ty]; fields_typed;
    match goal with |- wt ?t (?f ?x) => apply (ltac:(auto 8 with reify) : typed t f) end.
Qed.
Lemma vni_MLQuantitativeAnalysis : vni (TRef "MLQuantitativeAnalysis") reify_MLQuantitativeAnalysis reflect_MLQuantitativeAnalysis.
Proof.
  intros v W.
  apply wt_MLQuantitativeAnalysis_inv in W as (vs & -> & W). unfold fields_MLQuantitativeAnalysis in W.
  destruct vs as [|a0 vs]; [destruct W|]. destruct W as [W0 W]. cbn [f_ty] in W0.
  destruct vs as [|a1 vs]; [destruct W|]. destruct W as [W1 W]. cbn [f_ty] in W1.
  destruct vs as [|? ?]; [clear W|destruct W].
  cbn [reflect_MLQuantitativeAnalysis]. unfold reify_MLQuantitativeAnalysis. cbn [MLQuantitativeAnalysis_PerformanceMetrics MLQuantitativeAnalysis_Graphics]. fields_back.
  - match goal with |- ?f (?g ?v) = _ => match type of W0 with wt ?t _ => exact ((ltac:(auto 8 with reify) : vni t f g) v W0) end end.
  - match goal with |- ?f (?g ?v) = _ => match type of W1 with wt ?t _ => exact ((ltac:(auto 8 with reify) : vni t f g) v W1) end end.
Qed.
#[export] Hint Resolve inv_MLQuantitativeAnalysis typed_MLQuantitativeAnalysis vni_MLQuantitativeAnalysis : reify.

Lemma kind_MLModelCardEthicalConsideration : kind_of (TRef "MLModelCardEthicalConsideration") = KStruct fields_MLModelCardEthicalConsideration. Proof. reflexivity. Qed.
Lemma wt_MLModelCardEthicalConsideration_inv v : wt (TRef "MLModelCardEthicalConsideration") v -> exists vs, v = VStruct vs /\ zip_all (fun f x => wt (f_ty f) x) vs fields_MLModelCardEthicalConsideration.
Proof.
  intros W. destruct v; cbn [wt] in W; rewrite kind_MLModelCardEthicalConsideration in W; try discriminate; try contradiction. eauto.
Qed.
Lemma inv_MLModelCardEthicalConsideration : inv reify_MLModelCardEthicalConsideration reflect_MLModelCardEthicalConsideration.
Proof. intros x; unfold reify_MLModelCardEthicalConsideration; cbn [reflect_MLModelCardEthicalConsideration]; rr; destruct x; reflexivity. Qed.
Lemma typed_MLModelCardEthicalConsideration : typed (TRef "MLModelCardEthicalConsideration") reify_MLModelCardEthicalConsideration.
Proof.
  intros x; unfold reify_MLModelCardEthicalConsideration; cbn [wt]; rewrite kind_MLModelCardEthicalConsideration; unfold fields_MLModelCardEthicalConsideration; cbn [zip_all f_ty]; fields_typed;
    match goal with |- wt ?t (?f ?x) => apply (ltac:(auto 8 with reify) : typed t f) end.
Qed.
Lemma vni_MLModelCardEthicalConsideration : vni (TRef "MLModelCardEthicalConsideration") reify_MLModelCardEthicalConsideration reflect_MLModelCardEthicalConsideration.
Proof.
  intros v W.
  apply wt_MLModelCardEthicalConsideration_inv in W as (vs & -> & W). unfold fields_MLModelCardEthicalConsideration in W.
  destruct vs as [|a0 vs]; [destruct W|]. destruct W as [W0 W]. cbn [f_ty] in W0.
  destruct vs as [|a1 vs]; [destruct W|]. destruct W as [W1 W]. cbn [f_ty] in W1.
  destruct vs as [|? ?]; [clear W|destruct W].
  cbn [reflect_MLModelCardEthicalConsideration]. unfold reify_MLModelCardEthicalConsideration. cbn [MLModelCardEthicalConsideration_Name MLModelCardEthicalConsideration_MitigationStrategy]. fields_back.
  - match goal with |- ?f (?g ?v) = _ => match type of W0 with wt ?t _ => exact ((ltac:(auto 8 with reify) : vni t f g) v W0) end end.
  - match goal with |- ?f (?g ?v) = _ => match type of W1 with wt ?t _ => exact ((ltac:(auto 8 with reify) : vni t f g) v W1) end end.
Qed.
#[export] Hint Resolve inv_MLModelCardEthicalConsideration typed_MLModelCardEthicalConsideration vni_MLModelCardEthicalConsideration : reify.

Lemma kind_MLModelEnergyMeasure : kind_of (TRef "MLModelEnergyMeasure") = KStruct fields_MLModelEnergyMeasure. Proof. reflexivity. Qed.
Lemma wt_MLModelEnergyMeasure_inv v : wt (TRef "MLModelEnergyMeasure") v -> exists vs, v = VStruct vs /\ zip_all (fun f x => wt (f_ty f) x) vs fields_MLModelEnergyMeasure.
Proof.
  intros W. destruct v; cbn [wt] in W; rewrite kind_MLModelEnergyMeasure in W; try discriminate; try contradiction. eauto.
Qed.
Lemma inv_MLModelEnergyMeasure : inv reify_MLModelEnergyMeasure reflect_MLModelEnergyMeasure.
Proof. intros x; unfold reify_MLModelEnergyMeasure; cbn [reflect_MLModelEnergyMeasure]; rr; destruct x; reflexivity. Qed.
Lemma typed_MLModelEnergyMeasure : typed (TRef "MLModelEnergyMeasure") reify_MLModelEnergyMeasure.
Proof.
  intros x; unfold reify_MLModelEnergyMeasure; cbn [wt]; rewrite kind_MLModelEnergyMeasure; unfold fields_MLModelEnergyMeasure; cbn [zip_all f_ty]; fields_typed;
    match goal with |- wt ?t (?f ?x) => apply (ltac:(auto 8 with reify) : typed t f) end.
Qed.
Lemma vni_MLModelEnergyMeasure : vni (TRef "MLModelEnergyMeasure") reify_MLModelEnergyMeasure reflect_MLModelEnergyMeasure.
Proof.
  intros v W.
  apply wt_MLModelEnergyMeasure_inv in W as (vs & -> & W). unfold fields_MLModelEnergyMeasure in W.
  destruct vs as [|a0 vs]; [destruct W|]. destruct W as [W0 W]. cbn [f_ty] in W0.
  destruct vs as [|a1 vs]; [destruct W|]. destruct W as [W1 W]. cbn [f_ty] in W1.
  destruct vs as [|? ?]; [clear W|destruct W].
  cbn [reflect_MLModelEnergyMeasure]. unfold reify_MLModelEnergyMeasure. cbn [MLModelEnergyMeasure_Value MLModelEnergyMeasure_Unit]. fields_back.
  - match goal with |- ?f (?g ?v) = _ => match type of W0 with wt ?t _ => exact ((ltac:(auto 8 with reify) : vni t f g) v W0) end end.
  - match goal with |- ?f (?g ?v) = _ => match type of W1 with wt ?t _ => exact ((ltac:(auto 8 with reify) : vni t f g) v W1) end end.
Qed.
#[export] Hint Resolve inv_MLModelEnergyMeasure typed_MLModelEnergyMeasure vni_MLModelEnergyMeasure : reify.

Lemma kind_MLModelEnergyProvider : kind_of (TRef "MLModelEnergyProvider") = KStruct fields_MLModelEnergyProvider. Proof. reflexivity. Qed.
Lemma wt_MLModelEnergyProvider_inv v : wt (TRef "MLModelEnergyProvider") v -> exists vs, v = VStruct vs /\ zip_all (fun f x => wt (f_ty f) x) vs fields_MLModelEnergyProvider.
Proof.
  intros W. destruct v; cbn [wt] in W; rewrite kind_MLModelEnergyProvider in W; try discriminate; try contradiction. eauto.
Qed.
Lemma inv_MLModelEnergyProvider : inv reify_MLModelEnergyProvider reflect_MLModelEnergyProvider.
Proof. intros x; unfold reify_MLModelEnergyProvider; cbn [reflect_MLModelEnergyProvider]; rr; destruct x; reflexivity. Qed.
Lemma typed_MLModelEnergyProvider : typed (TRef "MLModelEnergyProvider") reify_MLModelEnergyProvider.
Proof.
  intros x; unfold reify_MLModelEnergyProvider; cbn [wt]; rewrite kind_MLModelEnergyProvider; unfold fields_MLModelEnergyProvider; cbn [zip_all f_ty]; fields_typed;
    match goal with |- wt ?t (?f ?x) => apply (ltac:(auto 8 with reify) : typed t f) end.
Qed.
Lemma vni_MLModelEnergyProvider : vni (TRef "MLModelEnergyProvider") reify_MLModelEnergyProvider reflect_MLModelEnergyProvider.
Proof.
  intros v W.
  apply wt_MLModelEnergyProvider_inv in W as (vs & -> & W). unfold fields_MLModelEnergyProvider in W.
  destruct vs as [|a0 vs]; [destruct W|]. destruct W as [W0 W]. cbn [f_ty] in W0.
  destruct vs as [|a1 vs]; [destruct W|]. destruct W as [W1 W]. cbn [f_ty] in W1.
  destruct vs as [|a2 vs]; [destruct W|]. destruct W as [W2 W]. cbn [f_ty] in W2.
  destruct vs as [|a3 vs]; [destruct W|]. destruct W as [W3 W]. cbn [f_ty] in W3.
  destruct vs as [|a4 vs]; [destruct W|]. destruct W as [W4 W]. cbn [f_ty] in W4.
  destruct vs as [|a5 vs]; [destruct W|]. destruct W as [W5 W]. cbn [f_ty] in W5.
  destruct vs as [|? ?]; [clear W|destruct W].
  cbn [reflect_MLModelEnergyProvider]. unfold reify_MLModelEnergyProvider. cbn [MLModelEnergyProvider_BOMRef MLModelEnergyProvider_Description MLModelEnergyProvider_Organization MLModelEnergyProvider_EnergySource MLModelEnergyProvider_EnergyProvided MLModelEnergyProvider_ExternalReferences]. fields_back.
  - match goal with |- ?f (?g ?v) = _ => match type of W0 with wt ?t _ => exact ((ltac:(auto 8 with reify) : vni t f g) v W0) end end.
  - match goal with |- ?f (?g ?v) = _ => match type of W1 with wt ?t _ => exact ((ltac:(auto 8 with reify) : vni t f g) v W1) end end.
  - match goal with |- ?f (?g ?v) = _ => match type of W2 with wt ?t _ => exact ((ltac:(auto 8 with reify) : vni t f g) v W2) end end.
  - match goal with |- ?f (?g ?v) = _ => match type of W3 with wt ?t _ => exact ((ltac:(auto 8 with reify) : vni t f g) v W3) end end.
  - match goal with |- ?f (?g ?v) = _ => match type of W4 with wt ?t _ => exact ((ltac:(auto 8 with reify) : vni t f g) v W4) end end.
  - match goal with |- ?f (?g ?v) = _ => match type of W5 with wt ?t _ => exact ((ltac:(auto 8 with reify) : vni t f g) v W5) end end.
Qed.
#[export] Hint Resolve inv_MLModelEnergyProvider typed_MLModelEnergyProvider vni_MLModelEnergyProvider : reify.

Lemma kind_MLModelCO2Measure : kind_of (TRef "MLModelCO2Measure") = KStruct fields_MLModelCO2Measure. Proof. reflexivity. Qed.
Lemma wt_MLModelCO2Measure_inv v : wt (TRef "MLModelCO2Measure") v -> exists vs, v = VStruct vs /\ zip_all (fun f x => wt (f_ty f) x) vs fields_MLModelCO2Measure.
Proof.
  intros W. destruct v; cbn [wt] in W; rewrite kind_MLModelCO2Measure in W; try discriminate; try contradiction. eauto.
Qed.
Lemma inv_MLModelCO2Measure : inv reify_MLModelCO2Measure reflect_MLModelCO2Measure.
Proof. intros x; unfold reify_MLModelCO2Measure; cbn [reflect_MLModelCO2Measure]; rr; destruct x; reflexivity. Qed.
Lemma typed_MLModelCO2Measure : typed (TRef "MLModelCO2Measure") reify_MLModelCO2Measure.
Proof.
  intros x; unfold reify_MLModelCO2Measure; cbn [wt]; rewrite kind_MLModelCO2Measure; unfold fields_MLModelCO2Measure; cbn [zip_all f_ty]; fields_typed;
    match goal with |- wt ?t (?f ?x) => apply (ltac:(auto 8 with reify) : typed t f) end.
Qed.
Lemma vni_MLModelCO2Measure : vni (TRef "MLModelCO2Measure") reify_MLModelCO2Measure reflect_MLModelCO2Measure.
Proof.
  intros v W.
  apply wt_MLModelCO2Measure_inv in W as (vs & -> & W). unfold fields_MLModelCO2Measure in W.
  destruct vs as [|a0 vs]; [destruct W|]. destruct W as [W0 W]. cbn [f_ty] in W0.
  destruct vs as [|a1 vs]; [destruct W|]. destruct W as [W1 W]. cbn [f_ty] in W1.
  destruct vs as [|? ?]; [clear W|destruct W].
  cbn [reflect_MLModelCO2Measure]. unfold reify_MLModelCO2Measure. cbn [MLModelCO2Measure_Value MLModelCO2Measure_Unit]. fields_back.
  - match goal with |- ?f (?g ?v) = _ => match type of W0 with wt ?t _ => exact ((ltac:(auto 8 with reify) : vni t f g) v W0) end end.
  - match goal with |- ?f (?g ?v) = _ => match type of W1 with wt ?t _ => exact ((ltac:(auto 8 with reify) : vni t f g) v W1) end end.
Qed.
#[export] Hint Resolve inv_MLModelCO2Measure typed_MLModelCO2Measure vni_MLModelCO2Measure : reify.

Lemma kind_MLModelEnergyConsumption : kind_of (TRef "MLModelEnergyConsumption") = KStruct fields_MLModelEnergyConsumption. Proof. reflexivity. Qed.
Lemma wt_MLModelEnergyConsumption_inv v : wt (TRef "MLModelEnergyConsumption") v -> exists vs, v = VStruct vs /\ zip_all (fun f x => wt (f_ty f) x) vs fields_MLModelEnergyConsumption.
Proof.
  intros W. destruct v; cbn [wt] in W; rewrite kind_MLModelEnergyConsumption in W; try discriminate; try contradiction. eauto.
Qed.
Lemma inv_MLModelEnergyConsumption : inv reify_MLModelEnergyConsumption reflect_MLModelEnergyConsumption.
Proof. intros x; unfold reify_MLModelEnergyConsumption; cbn [reflect_MLModelEnergyConsumption]; rr; destruct x; reflexivity. Qed.
Lemma typed_MLModelEnergyConsumption : typed (TRef "MLModelEnergyConsumption") reify_MLModelEnergyConsumption.
Proof.
  intros x; unfold reify_MLModelEnergyConsumption; cbn [wt]; rewrite kind_MLModelEnergyConsumption; unfold fields_MLModelEnergyConsumption; cbn [zip_all f_ty]; fields_typed;
    match goal with |- wt ?t (?f ?x) => apply (ltac:(auto 8 with reify) : typed t f) end.
Qed.
Lemma vni_MLModelEnergyConsumption : vni (TRef "MLModelEnergyConsumption") reify_MLModelEnergyConsumption reflect_MLModelEnergyConsumption.
Proof.
  intros v W.
  apply wt_MLModelEnergyConsumption_inv in W as (vs & -> & W). unfold fields_MLModelEnergyConsumption in W.
  destruct vs as [|a0 vs]; [destruct W|]. destruct W as [W0 W]. cbn [f_ty] in W0.
  destruct vs as [|a1 vs]; [destruct W|]. destruct W as [W1 W]. cbn [f_ty] in W1.
  destruct vs as [|a2 vs]; [destruct W|]. destruct W as [W2 W]. cbn [f_ty] in W2.
  destruct vs as [|a3 vs]; [destruct W|]. destruct W as [W3 W]. cbn [f_ty] in W3.
  destruct vs as [|a4 vs]; [destruct W|]. destruct W as [W4 W]. cbn [f_ty] in W4.
  destruct vs as [|a5 vs]; [destruct W|]. destruct W as [W5 W]. cbn [f_ty] in W5.
  destruct vs as [|? ?]; [clear W|destruct W].
  cbn [reflect_MLModelEnergyConsumption]. unfold reify_MLModelEnergyConsumption. cbn [MLModelEnergyConsumption_Activity MLModelEnergyConsumption_EnergyProviders MLModelEnergyConsumption_ActivityEnergyCost MLModelEnergyConsumption_CO2CostEquivalent MLModelEnergyConsumption_CO2CostOffset MLModelEnergyConsumption_Properties]. fields_back.
  - match goal with |- ?f (?g ?v) = _ => match type of W0 with wt ?t _ => exact ((ltac:(auto 8 with reify) : vni t f g) v W0) end end.
  - match goal with |- ?f (?g ?v) = _ => match type of W1 with wt ?t _ => exact ((ltac:(auto 8 with reify) : vni t f g) v W1) end end.
  - match goal with |- ?f (?g ?v) = _ => match type of W2 with wt ?t _ => exact ((ltac:(auto 8 with reify) : vni t f g) v W2) end end.
  - match goal with |- ?f (?g ?v) = _ => match type of W3 with wt ?t _ => exact ((ltac:(auto 8 with reify) : vni t f g) v W3) end end.
  - match goal with |- ?f (?g ?v) = _ => match type of W4 with wt ?t _ => exact ((ltac:(auto 8 with reify) : vni t f g) v W4) end end.
  - match goal with |- ?f (?g ?v) = _ => match type of W5 with wt ?t _ => exact ((ltac:(auto 8 with reify) : vni t f g) v W5) end end.
Qed.
#[export] Hint Resolve inv_MLModelEnergyConsumption typed_MLModelEnergyConsumption vni_MLModelEnergyConsumption : reify.

Lemma kind_MLModelCardEnvironmentalConsiderations : kind_of (TRef "MLModelCardEnvironmentalConsiderations") = KStruct fields_MLModelCardEnvironmentalConsiderations. Proof. reflexivity. Qed.
Lemma wt_MLModelCardEnvironmentalConsiderations_inv v : wt (TRef "MLModelCardEnvironmentalConsiderations") v -> exists vs, v = VStruct vs /\ zip_all (fun f x => wt (f_ty f) x) vs fields_MLModelCardEnvironmentalConsiderations.
Proof.
  intros W. destruct v; cbn [wt] in W; rewrite kind_MLModelCardEnvironmentalConsiderations in W; try discriminate; try contradiction. eauto.
Qed.
Lemma inv_MLModelCardEnvironmentalConsiderations : inv reify_MLModelCardEnvironmentalConsiderations reflect_MLModelCardEnvironmentalConsiderations.
Proof. intros x; unfold reify_MLModelCardEnvironmentalConsiderations; cbn [reflect_MLModelCardEnvironmentalConsiderations]; rr; destruct x; reflexivity. Qed.
Lemma typed_MLModelCardEnvironmentalConsiderations : typed (TRef "MLModelCardEnvironmentalConsiderations") reify_MLModelCardEnvironmentalConsiderations.
Proof.
  intros x; unfold reify_MLModelCardEnvironmentalConsiderations; cbn [wt]; rewrite kind_MLModelCardEnvironmentalConsiderations; unfold fields_MLModelCardEnvironmentalConsiderations; cbn [zip_all f_ty]; fields_typed;
    match goal with |- wt ?t (?f ?x) => apply (ltac:(auto 8 with reify) : typed t f) end.
Qed.
Lemma vni_MLModelCardEnvironmentalConsiderations : vni (TRef "MLModelCardEnvironmentalConsiderations") reify_MLModelCardEnvironmentalConsiderations reflect_MLModelCardEnvironmentalConsiderations.
Proof.
  intros v W.
  apply wt_MLModelCardEnvironmentalConsiderations_inv in W as (vs & -> & W). unfold fields_MLModelCardEnvironmentalConsiderations in W.
  destruct vs as [|a0 vs]; [destruct W|]. destruct W as [W0 W]. cbn [f_ty] in W0.
  destruct vs as [|a1 vs]; [destruct W|]. destruct W as [W1 W]. cbn [f_ty] in W1.
  destruct vs as [|? ?]; [clear W|destruct W].
  cbn [reflect_MLModelCardEnvironmentalConsiderations]. unfold reify_MLModelCardEnvironmentalConsiderations. cbn [MLModelCardEnvironmentalConsiderations_EnergyConsumptions MLModelCardEnvironmentalConsiderations_Properties]. fields_back.
  - match goal with |- ?f (?g ?v) = _ => match type of W0 with wt ?t _ => exact ((ltac:(auto 8 with reify) : vni t f g) v W0) end end.
  - match goal with |- ?f (?g ?v) = _ => match type of W1 with wt ?t _ => exact ((ltac:(auto 8 with reify) : vni t f g) v W1) end end.
Qed.
#[export] Hint Resolve inv_MLModelCardEnvironmentalConsiderations typed_MLModelCardEnvironmentalConsiderations vni_MLModelCardEnvironmentalConsiderations : reify.

Lemma kind_MLModelCardFairnessAssessment : kind_of (TRef "MLModelCardFairnessAssessment") = KStruct fields_MLModelCardFairnessAssessment. Proof. reflexivity. Qed.
Lemma wt_MLModelCardFairnessAssessment_inv v : wt (TRef "MLModelCardFairnessAssessment") v -> exists vs, v = VStruct vs /\ zip_all (fun f x => wt (f_ty f) x) vs fields_MLModelCardFairnessAssessment.
Proof.
  intros W. destruct v; cbn [wt] in W; rewrite kind_MLModelCardFairnessAssessment in W; try discriminate; try contradiction. eauto.
Qed.
Lemma inv_MLModelCardFairnessAssessment : inv reify_MLModelCardFairnessAssessment reflect_MLModelCardFairnessAssessment.
Proof. intros x; unfold reify_MLModelCardFairnessAssessment; cbn [reflect_MLModelCardFairnessAssessment]; rr; destruct x; reflexivity. Qed.
Lemma typed_MLModelCardFairnessAssessment : typed (TRef "MLModelCardFairnessAssessment") reify_MLModelCardFairnessAssessment.
Proof.
  intros x; unfold reify_MLModelCardFairnessAssessment; cbn [wt]; rewrite kind_MLModelCardFairnessAssessment; unfold fields_MLModelCardFairnessAssessment; cbn [zip_all f_ty]; fields_typed;
    match goal with |- wt ?t (?f ?x) => apply (ltac:(auto 8 with reify) : typed t f) end.
Qed.
Lemma vni_MLModelCardFairnessAssessment : vni (TRef "MLModelCardFairnessAssessment") reify_MLModelCardFairnessAssessment reflect_MLModelCardFairnessAssessment.
Proof.
  intros v W.
  apply wt_MLModelCardFairnessAssessment_inv in W as (vs & -> & W). unfold fields_MLModelCardFairnessAssessment in W.
  destruct vs as [|a0 vs]; [destruct W|]. destruct W as [W0 W]. cbn [f_ty] in W0.
  destruct vs as [|a1 vs]; [destruct W|]. destruct W as [W1 W]. cbn [f_ty] in W1.
  destruct vs as [|a2 vs]; [destruct W|]. destruct W as [W2 W]. cbn [f_ty] in W2.
  destruct vs as [|a3 vs]; [destruct W|]. destruct W as [W3 W]. cbn [f_ty] in W3.
  destruct vs as [|? ?]; [clear W|destruct W].
  cbn [reflect_MLModelCardFairnessAssessment]. unfold reify_MLModelCardFairnessAssessment. cbn [MLModelCardFairnessAssessment_GroupAtRisk MLModelCardFairnessAssessment_Benefits MLModelCardFairnessAssessment_Harms MLModelCardFairnessAssessment_MitigationStrategy]. fields_back.
  - match goal with |- ?f (?g ?v) = _ => match type of W0 with wt ?t _ => exact ((ltac:(auto 8 with reify) : vni t f g) v W0) end end.
  - match goal with |- ?f (?g ?v) = _ => match type of W1 with wt ?t _ => exact ((ltac:(auto 8 with reify) : vni t f g) v W1) end end.
  - match goal with |- ?f (?g ?v) = _ => match type of W2 with wt ?t _ => exact ((ltac:(auto 8 with reify) : vni t f g) v W2) end end.
  - match goal with |- ?f (?g ?v) = _ => match type of W3 with wt ?t _ => exact ((ltac:(auto 8 with reify) : vni t f g) v W3) end end.
Qed.
#[export] Hint Resolve inv_MLModelCardFairnessAssessment typed_MLModelCardFairnessAssessment vni_MLModelCardFairnessAssessment : reify.

Lemma kind_MLModelCardConsiderations : kind_of (TRef "MLModelCardConsiderations") = KStruct fields_MLModelCardConsiderations. Proof. reflexivity. Qed.
Lemma wt_MLModelCardConsiderations_inv v : wt (TRef "MLModelCardConsiderations") v -> exists vs, v = VStruct vs /\ zip_all (fun f x => wt (f_ty f) x) vs fields_MLModelCardConsiderations.
Proof.
  intros W. destruct v; cbn [wt] in W; rewrite kind_MLModelCardConsiderations in W; try discriminate; try contradiction. eauto.
Qed.
Lemma inv_MLModelCardConsiderations : inv reify_MLModelCardConsiderations reflect_MLModelCardConsiderations.
Proof. intros x; unfold reify_MLModelCardConsiderations; cbn [reflect_MLModelCardConsiderations]; rr; destruct x; reflexivity. Qed.
Lemma typed_MLModelCardConsiderations : typed (TRef "MLModelCardConsiderations") reify_MLModelCardConsiderations.
Proof.
  intros x; unfold reify_MLModelCardConsiderations; cbn [wt]; rewrite kind_MLModelCardConsiderations; unfold fields_MLModelCardConsiderations; cbn [zip_all f_ty]; fields_typed;
    match goal with |- wt ?t (?f ?x) => apply (ltac:(auto 8 with reify) : typed t f) end.
Qed.
Lemma vni_MLModelCardConsiderations : vni (TRef "MLModelCardConsiderations") reify_MLModelCardConsiderations reflect_MLModelCardConsiderations.
Proof.
  intros v W.
  apply wt_MLModelCardConsiderations_inv in W as (vs & -> & W). unfold fields_MLModelCardConsiderations in W.
  destruct vs as [|a0 vs]; [destruct W|]. destruct W as [W0 W]. cbn [f_ty] in W0.
  destruct vs as [|a1 vs]; [destruct W|]. destruct W as [W1 W]. cbn [f_ty] in W1.
  destruct vs as [|a2 vs]; [destruct W|]. destruct W as [W2 W]. cbn [f_ty] in W2.
  destruct vs as [|a3 vs]; [destruct W|]. destruct W as [W3 W]. cbn [f_ty] in W3.
  destruct vs as [|a4 vs]; [destruct W|]. destruct W as [W4 W]. cbn [f_ty] in W4.
  destruct vs as [|a5 vs]; [destruct W|]. destruct W as [W5 W]. cbn [f_ty] in W5.
  destruct vs as [|a6 vs]; [destruct W|]. destruct W as [W6 W]. cbn [f_ty] in W6.
  destruct vs as [|? ?]; [clear W|destruct W].
  cbn [reflect_MLModelCardConsiderations]. unfold reify_MLModelCardConsiderations. cbn [MLModelCardConsiderations_Users MLModelCardConsiderations_UseCases MLModelCardConsiderations_TechnicalLimitations MLModelCardConsiderations_PerformanceTradeoffs MLModelCardConsiderations_EthicalConsiderations MLModelCardConsiderations_EnvironmentalConsiderations MLModelCardConsiderations_FairnessAssessments]. fields_back.
  - match goal with |- ?f (?g ?v) = _ => match type of W0 with wt ?t _ => exact ((ltac:(auto 8 with reify) : vni t f g) v W0) end end.
  - match goal with |- ?f (?g ?v) = _ => match type of W1 with wt ?t _ => exact ((ltac:(auto 8 with reify) : vni t f g) v W1) end end.
  - match goal with |- ?f (?g ?v) = _ => match type of W2 with wt ?t _ => exact ((ltac:(auto 8 with reify) : vni t f g) v W2) end end.
  - match goal with |- ?f (?g ?v) = _ => match type of W3 with wt ?t _ => exact ((ltac:(auto 8 with reify) : vni t f g) v W3) end end.
  - match goal with |- ?f (?g ?v) = _ => match type of W4 with wt ?t _ => exact ((ltac:(auto 8 with reify) : vni t f g) v W4) end end.
  - match goal with |- ?f (?g ?v) = _ => match type of W5 with wt ?t _ => exact ((ltac:(auto 8 with reify) : vni t f g) v W5) end end.
  - match goal with |- ?f (?g ?v) = _ => match type of W6 with wt ?t _ => exact ((ltac:(auto 8 with reify) : vni t f g) v W6) end end.
Qed.
#[export] Hint Resolve inv_MLModelCardConsiderations typed_MLModelCardConsiderations vni_MLModelCardConsiderations : reify.

Lemma kind_MLModelCard : kind_of (TRef "MLModelCard") = KStruct fields_MLModelCard. Proof. reflexivity. Qed.
Lemma wt_MLModelCard_inv v : wt (TRef "MLModelCard") v -> exists vs, v = VStruct vs /\ zip_all (fun f x => wt (f_ty f) x) vs fields_MLModelCard.
Proof.
  intros W. destruct v; cbn [wt] in W; rewrite kind_MLModelCard in W; try discriminate; try contradiction. eauto.
Qed.
Lemma inv_MLModelCard : inv reify_MLModelCard reflect_MLModelCard.
Proof. intros x; unfold reify_MLModelCard; cbn [reflect_MLModelCard]; rr; destruct x; reflexivity. Qed.
Lemma typed_MLModelCard : typed (TRef "MLModelCard") reify_MLModelCard.
Proof.
  intros x; unfold reify_MLModelCard; cbn [wt]; rewrite kind_MLModelCard; unfold fields_MLModelCard; cbn [zip_all f_ty]; fields_typed;
    match goal with |- wt ?t (?f ?x) => apply (ltac:(auto 8 with reify) : typed t f) end.
Qed.
Lemma vni_MLModelCard : vni (TRef "MLModelCard") reify_MLModelCard reflect_MLModelCard.
Proof.
  intros v W.
  apply wt_MLModelCard_inv in W as (vs & -> & W). unfold fields_MLModelCard in W.
  destruct vs as [|a0 vs]; [destruct W|]. destruct W as [W0 W]. cbn [f_ty] in W0.
  destruct vs as [|a1 vs]; [destruct W|]. destruct W as [W1 W]. cbn [f_ty] in W1.
  destruct vs as [|a2 vs]; [destruct W|]. destruct W as [W2 W]. cbn [f_ty] in W2.
  destruct vs as [|a3 vs]; [destruct W|]. destruct W as [W3 W]. cbn [f_ty] in W3.
  destruct vs as [|? ?]; [clear W|destruct W].
  cbn [reflect_MLModelCard]. unfold reify_MLModelCard. cbn [MLModelCard_BOMRef MLModelCard_ModelParameters MLModelCard_QuantitativeAnalysis MLModelCard_Considerations]. fields_back.
  - match goal with |- ?f (?g ?v) = _ => match type of W0 with wt ?t _ => exact ((ltac:(auto 8 with reify) : vni t f g) v W0) end end.
  - match goal with |- ?f (?g ?v) = _ => match type of W1 with wt ?t _ => exact ((ltac:(auto 8 with reify) : vni t f g) v W1) end end.
  - match goal with |- ?f (?g ?v) = _ => match type of W2 with wt ?t _ => exact ((ltac:(auto 8 with reify) : vni t f g) v W2) end end.
  - match goal with |- ?f (?g ?v) = _ => match type of W3 with wt ?t _ => exact ((ltac:(auto 8 with reify) : vni t f g) v W3) end end.
Qed.
#[export] Hint Resolve inv_MLModelCard typed_MLModelCard vni_MLModelCard : reify.

Lemma kind_CryptoAlgorithmProperties : kind_of (TRef "CryptoAlgorithmProperties") = KStruct fields_CryptoAlgorithmProperties. Proof. reflexivity. Qed.
Lemma wt_CryptoAlgorithmProperties_inv v : wt (TRef "CryptoAlgorithmProperties") v -> exists vs, v = VStruct vs /\ zip_all (fun f x => wt (f_ty f) x) vs fields_CryptoAlgorithmProperties.
Proof.
  intros W. destruct v; cbn [wt] in W; rewrite kind_CryptoAlgorithmProperties in W; try discriminate; try contradiction. eauto.
Qed.
Lemma inv_CryptoAlgorithmProperties : inv reify_CryptoAlgorithmProperties reflect_CryptoAlgorithmProperties.
Proof. intros x; unfold reify_CryptoAlgorithmProperties; cbn [reflect_CryptoAlgorithmProperties]; rr; destruct x; reflexivity. Qed.
Lemma typed_CryptoAlgorithmProperties : typed (TRef "CryptoAlgorithmProperties") reify_CryptoAlgorithmProperties.
Proof.
  intros x; unfold reify_CryptoAlgorithmProperties; cbn [wt]; rewrite kind_CryptoAlgorithmProperties; unfold fields_CryptoAlgorithmProperties; cbn [zip_all f_ty]; fields_typed;
    match goal with |- wt ?t (?f ?x) => apply (ltac:(auto 8 with reify) : typed t f) end.
Qed.
Lemma vni_CryptoAlgorithmProperties : vni (TRef "CryptoAlgorithmProperties") reify_CryptoAlgorithmProperties reflect_CryptoAlgorithmProperties.
Proof.
  intros v W.
  apply wt_CryptoAlgorithmProperties_inv in W as (vs & -> & W). unfold fields_CryptoAlgorithmProperties in W.
  destruct vs as [|a0 vs]; [destruct W|]. destruct W as [W0 W]. cbn [f_ty] in W0.
  destruct vs as [|a1 vs]; [destruct W|]. destruct W as [W1 W]. cbn [f_ty] in W1.
  destruct vs as [|a2 vs]; [destruct W|]. destruct W as [W2 W]. cbn [f_ty] in W2.
  destruct vs as [|a3 vs]; [destruct W|]. destruct W as [W3 W]. cbn [f_ty] in W3.
  destruct vs as [|a4 vs]; [destruct W|]. destruct W as [W4 W]. cbn [f_ty] in W4.
  destruct vs as [|a5 vs]; [destruct W|]. destruct W as [W5 W]. cbn [f_ty] in W5.
  destruct vs as [|a6 vs]; [destruct W|]. destruct W as [W6 W]. cbn [f_ty] in W6.
  destruct vs as [|a7 vs]; [destruct W|]. destruct W as [W7 W]. cbn [f_ty] in W7.
  destruct vs as [|a8 vs]; [destruct W|]. destruct W as [W8 W]. cbn [f_ty] in W8.
  destruct vs as [|a9 vs]; [destruct W|]. destruct W as [W9 W]. cbn [f_ty] in W9.
  destruct vs as [|a10 vs]; [destruct W|]. destruct W as [W10 W]. cbn [f_ty] in W10.
  destruct vs as [|a11 vs]; [destruct W|]. destruct W as [W11 W]. cbn [f_ty] in W11.
  destruct vs as [|a12 vs]; [destruct W|]. destruct W as [W12 W]. cbn [f_ty] in W12.
  destruct vs as [|? ?]; [clear W|destruct W].
  cbn [reflect_CryptoAlgorithmProperties]. unfold reify_CryptoAlgorithmProperties. cbn [CryptoAlgorithmProperties_Primitive CryptoAlgorithmProperties_ParameterSetIdentifier CryptoAlgorithmProperties_AlgorithmFamily CryptoAlgorithmProperties_Curve CryptoAlgorithmProperties_EllipticCurve CryptoAlgorithmProperties_ExecutionEnvironment CryptoAlgorithmProperties_ImplementationPlatform CryptoAlgorithmProperties_CertificationLevel CryptoAlgorithmProperties_Mode CryptoAlgorithmProperties_Padding CryptoAlgorithmProperties_CryptoFunctions CryptoAlgorithmProperties_ClassicalSecurityLevel CryptoAlgorithmProperties_NistQuantumSecurityLevel]. fields_back.
  - match goal with |- ?f (?g ?v) = _ => match type of W0 with wt ?t _ => exact ((ltac:(auto 8 with reify) : vni t f g) v W0) end end.
  - match goal with |- ?f (?g ?v) = _ => match type of W1 with wt ?t _ => exact ((ltac:(auto 8 with reify) : vni t f g) v W1) end end.
  - match goal with |- ?f (?g ?v) = _ => match type of W2 with wt ?t _ => exact ((ltac:(auto 8 with reify) : vni t f g) v W2) end end.
  - match goal with |- ?f (?g ?v) = _ => match type of W3 with wt ?t _ => exact ((ltac:(auto 8 with reify) : vni t f g) v W3) end end.
  - match goal with |- ?f (?g ?v) = _ => match type of W4 with wt ?t _ => exact ((ltac:(auto 8 with reify) : vni t f g) v W4) end end.
  - match goal with |- ?f (?g ?v) = _ => match type of W5 with wt ?t _ => exact ((ltac:(auto 8 with reify) : vni t f g) v W5) end end.
  - match goal with |- ?f (?g ?v) = _ => match type of W6 with wt ?t _ => exact ((ltac:(auto 8 with reify) : vni t f g) v W6) end end.
  - match goal with |- ?f (?g ?v) = _ => match type of W7 with wt ?t _ => exact ((ltac:(auto 8 with reify) : vni t f g) v W7) end end.
  - match goal with |- ?f (?g ?v) = _ => match type of W8 with wt ?t _ => exact ((ltac:(auto 8 with reify) : vni t f g) v W8) end end.
  - match goal with |- ?f (?g ?v) = _ => match type of W9 with wt ?t _ => exact ((ltac:(auto 8 with reify) : vni t f g) v W9) end end.
  - match goal with |- ?f (?g ?v) = _ => match type of W10 with wt ?t _ => exact ((ltac:(auto 8 with reify) : vni t f g) v W10) end end.
  - match goal with |- ?f (?g ?v) = _ => match type of W11 with wt ?t _ => exact ((ltac:(auto 8 with reify) : vni t f g) v W11) end end.
  - match goal with |- ?f (?g ?v) = _ => match type of W12 with wt ?t _ => exact ((ltac:(auto 8 with reify) : vni t f g) v W12) end end.
Qed.
#[export] Hint Resolve inv_CryptoAlgorithmProperties typed_CryptoAlgorithmProperties vni_CryptoAlgorithmProperties : reify.

Lemma kind_PredefinedCertificateState : kind_of (TRef "PredefinedCertificateState") = KStruct fields_PredefinedCertificateState. Proof. reflexivity. Qed.
Lemma wt_PredefinedCertificateState_inv v : wt (TRef "PredefinedCertificateState") v -> exists vs, v = VStruct vs /\ zip_all (fun f x => wt (f_ty f) x) vs fields_PredefinedCertificateState.
Proof.
  intros W. destruct v; cbn [wt] in W; rewrite kind_PredefinedCertificateState in W; try discriminate; try contradiction. eauto.
Qed.
Lemma inv_PredefinedCertificateState : inv reify_PredefinedCertificateState reflect_PredefinedCertificateState.
Proof. intros x; unfold reify_PredefinedCertificateState; cbn [reflect_PredefinedCertificateState]; rr; destruct x; reflexivity. Qed.
Lemma typed_PredefinedCertificateState : typed (TRef "PredefinedCertificateState") reify_PredefinedCertificateState.
Proof.
  intros x; unfold reify_PredefinedCertificateState; cbn [wt]; rewrite kind_PredefinedCertificateState; unfold fields_PredefinedCertificateState; cbn [zip_all f_ty]; fields_typed;
    match goal with |- wt ?t (?f ?x) => apply (ltac:(auto 8 with reify) : typed t f) end.
Qed.
Lemma vni_PredefinedCertificateState : vni (TRef "PredefinedCertificateState") reify_PredefinedCertificateState reflect_PredefinedCertificateState.
Proof.
  intros v W.
  apply wt_PredefinedCertificateState_inv in W as (vs & -> & W). unfold fields_PredefinedCertificateState in W.
  destruct vs as [|a0 vs]; [destruct W|]. destruct W as [W0 W]. cbn [f_ty] in W0.
  destruct vs as [|a1 vs]; [destruct W|]. destruct W as [W1 W]. cbn [f_ty] in W1.
  destruct vs as [|? ?]; [clear W|destruct W].
  cbn [reflect_PredefinedCertificateState]. unfold reify_PredefinedCertificateState. cbn [PredefinedCertificateState_State PredefinedCertificateState_Reason]. fields_back.
  - match goal with |- ?f (?g ?v) = _ => match type of W0 with wt ?t _ => exact ((ltac:(auto 8 with reify) : vni t f g) v W0) end end.
  - match goal with |- ?f (?g ?v) = _ => match type of W1 with wt ?t _ => exact ((ltac:(auto 8 with reify) : vni t f g) v W1) end end.
Qed.
#[export] Hint Resolve inv_PredefinedCertificateState typed_PredefinedCertificateState vni_PredefinedCertificateState : reify.

Lemma kind_CustomCertificateState : kind_of (TRef "CustomCertificateState") = KStruct fields_CustomCertificateState. Proof. reflexivity. Qed.
Lemma wt_CustomCertificateState_inv v : wt (TRef "CustomCertificateState") v -> exists vs, v = VStruct vs /\ zip_all (fun f x => wt (f_ty f) x) vs fields_CustomCertificateState.
Proof.
  intros W. destruct v; cbn [wt] in W; rewrite kind_CustomCertificateState in W; try discriminate; try contradiction. eauto.
Qed.
Lemma inv_CustomCertificateState : inv reify_CustomCertificateState reflect_CustomCertificateState.
Proof. intros x; unfold reify_CustomCertificateState; cbn [reflect_CustomCertificateState]; rr; destruct x; reflexivity. Qed.
Lemma typed_CustomCertificateState : typed (TRef "CustomCertificateState") reify_CustomCertificateState.
Proof.
  intros x; unfold reify_CustomCertificateState; cbn [wt]; rewrite kind_CustomCertificateState; unfold fields_CustomCertificateState; cbn [zip_all f_ty]; fields_typed;
    match goal with |- wt ?t (?f ?x) => apply (ltac:(auto 8 with reify) : typed t f) end.
Qed.
Lemma vni_CustomCertificateState : vni (TRef "CustomCertificateState") reify_CustomCertificateState reflect_CustomCertificateState.
Proof.
  intros v W.
  apply wt_CustomCertificateState_inv in W as (vs & -> & W). unfold fields_CustomCertificateState in W.
  destruct vs as [|a0 vs]; [destruct W|]. destruct W as [W0 W]. cbn [f_ty] in W0.
  destruct vs as [|a1 vs]; [destruct W|]. destruct W as [W1 W]. cbn [f_ty] in W1.
  destruct vs as [|a2 vs]; [destruct W|]. destruct W as [W2 W]. cbn [f_ty] in W2.
  destruct vs as [|? ?]; [clear W|destruct W].
  cbn [reflect_CustomCertificateState]. unfold reify_CustomCertificateState. cbn [CustomCertificateState_Name CustomCertificateState_Description CustomCertificateState_Reason]. fields_back.
  - match goal with |- ?f (?g ?v) = _ => match type of W0 with wt ?t _ => exact ((ltac:(auto 8 with reify) : vni t f g) v W0) end end.
  - match goal with |- ?f (?g ?v) = _ => match type of W1 with wt ?t _ => exact ((ltac:(auto 8 with reify) : vni t f g) v W1) end end.
  - match goal with |- ?f (?g ?v) = _ => match type of W2 with wt ?t _ => exact ((ltac:(auto 8 with reify) : vni t f g) v W2) end end.
Qed.
#[export] Hint Resolve inv_CustomCertificateState typed_CustomCertificateState vni_CustomCertificateState : reify.

Lemma kind_CertificateState : kind_of (TRef "CertificateState") = KStruct fields_CertificateState. Proof. reflexivity. Qed.
Lemma wt_CertificateState_inv v : wt (TRef "CertificateState") v -> exists vs, v = VStruct vs /\ zip_all (fun f x => wt (f_ty f) x) vs fields_CertificateState.
Proof.
  intros W. destruct v; cbn [wt] in W; rewrite kind_CertificateState in W; try discriminate; try contradiction. eauto.
Qed.
Lemma inv_CertificateState : inv reify_CertificateState reflect_CertificateState.
Proof. intros x; unfold reify_CertificateState; cbn [reflect_CertificateState]; rr; destruct x; reflexivity. Qed.
Lemma typed_CertificateState : typed (TRef "CertificateState") reify_CertificateState.
Proof.
  intros x; unfold reify_CertificateState; cbn [wt]; rewrite kind_CertificateState; unfold fields_CertificateState; cbn [zip_all f_ty]; fields_typed;
    match goal with |- wt ?t (?f ?x) => apply (ltac:(auto 8 with reify) : typed t f) end.
Qed.
Lemma vni_CertificateState : vni (TRef "CertificateState") reify_CertificateState reflect_CertificateState.
Proof.
  intros v W.
  apply wt_CertificateState_inv in W as (vs & -> & W). unfold fields_CertificateState in W.
  destruct vs as [|a0 vs]; [destruct W|]. destruct W as [W0 W]. cbn [f_ty] in W0.
  destruct vs as [|a1 vs]; [destruct W|]. destruct W as [W1 W]. cbn [f_ty] in W1.
  destruct vs as [|? ?]; [clear W|destruct W].
  cbn [reflect_CertificateState]. unfold reify_CertificateState. cbn [CertificateState_Predefined CertificateState_Custom]. fields_back.
  - match goal with |- ?f (?g ?v) = _ => match type of W0 with wt ?t _ => exact ((ltac:(auto 8 with reify) : vni t f g) v W0) end end.
  - match goal with |- ?f (?g ?v) = _ => match type of W1 with wt ?t _ => exact ((ltac:(auto 8 with reify) : vni t f g) v W1) end end.
Qed.
#[export] Hint Resolve inv_CertificateState typed_CertificateState vni_CertificateState : reify.

Lemma kind_CommonCertificateExtension : kind_of (TRef "CommonCertificateExtension") = KStruct fields_CommonCertificateExtension. Proof. reflexivity. Qed.
Lemma wt_CommonCertificateExtension_inv v : wt (TRef "CommonCertificateExtension") v -> exists vs, v = VStruct vs /\ zip_all (fun f x => wt (f_ty f) x) vs fields_CommonCertificateExtension.
Proof.
  intros W. destruct v; cbn [wt] in W; rewrite kind_CommonCertificateExtension in W; try discriminate; try contradiction. eauto.
Qed.
Lemma inv_CommonCertificateExtension : inv reify_CommonCertificateExtension reflect_CommonCertificateExtension.
Proof. intros x; unfold reify_CommonCertificateExtension; cbn [reflect_CommonCertificateExtension]; rr; destruct x; reflexivity. Qed.
Lemma typed_CommonCertificateExtension : typed (TRef "CommonCertificateExtension") reify_CommonCertificateExtension.
Proof.
  intros x; unfold reify_CommonCertificateExtension; cbn [wt]; rewrite kind_CommonCertificateExtension; unfold fields_CommonCertificateExtension; cbn [zip_all f_ty]; fields_typed;
    match goal with |- wt ?t (?f ?x) => apply (ltac:(auto 8 with reify) : typed t f) end.
Qed.
Lemma vni_CommonCertificateExtension : vni (TRef "CommonCertificateExtension") reify_CommonCertificateExtension reflect_CommonCertificateExtension.
Proof.
  intros v W.
  apply wt_CommonCertificateExtension_inv in W as (vs & -> & W). unfold fields_CommonCertificateExtension in W.
  destruct vs as [|a0 vs]; [destruct W|]. destruct W as [W0 W]. cbn [f_ty] in W0.
  destruct vs as [|a1 vs]; [destruct W|]. destruct W as [W1 W]. cbn [f_ty] in W1.
  destruct vs as [|? ?]; [clear W|destruct W].
  cbn [reflect_CommonCertificateExtension]. unfold reify_CommonCertificateExtension. cbn [CommonCertificateExtension_Name CommonCertificateExtension_Value]. fields_back.
  - match goal with |- ?f (?g ?v) = _ => match type of W0 with wt ?t _ => exact ((ltac:(auto 8 with reify) : vni t f g) v W0) end end.
  - match goal with |- ?f (?g ?v) = _ => match type of W1 with wt ?t _ => exact ((ltac:(auto 8 with reify) : vni t f g) v W1) end end.
Qed.
#[export] Hint Resolve inv_CommonCertificateExtension typed_CommonCertificateExtension vni_CommonCertificateExtension : reify.

Lemma kind_CustomCertificateExtension : kind_of (TRef "CustomCertificateExtension") = KStruct fields_CustomCertificateExtension. Proof. reflexivity. Qed.
Lemma wt_CustomCertificateExtension_inv v : wt (TRef "CustomCertificateExtension") v -> exists vs, v = VStruct vs /\ zip_all (fun f x => wt (f_ty f) x) vs fields_CustomCertificateExtension.
Proof.
  intros W. destruct v; cbn [wt] in W; rewrite kind_CustomCertificateExtension in W; try discriminate; try contradiction. eauto.
Qed.
Lemma inv_CustomCertificateExtension : inv reify_CustomCertificateExtension reflect_CustomCertificateExtension.
Proof. intros x; unfold reify_CustomCertificateExtension; cbn [reflect_CustomCertificateExtension]; rr; destruct x; reflexivity. Qed.
Lemma typed_CustomCertificateExtension : typed (TRef "CustomCertificateExtension") reify_CustomCertificateExtension.
Proof.
  intros x; unfold reify_CustomCertificateExtension; cbn [wt]; rewrite kind_CustomCertificateExtension; unfold fields_CustomCertificateExtension; cbn [zip_all f_ty]; fields_typed;
    match goal with |- wt ?t (?f ?x) => apply (ltac:(auto 8 with reify) : typed t f) end.
Qed.
Lemma vni_CustomCertificateExtension : vni (TRef "CustomCertificateExtension") reify_CustomCertificateExtension reflect_CustomCertificateExtension.
Proof.
  intros v W.
  apply wt_CustomCertificateExtension_inv in W as (vs & -> & W). unfold fields_CustomCertificateExtension in W.
  destruct vs as [|a0 vs]; [destruct W|]. destruct W as [W0 W]. cbn [f_ty] in W0.
  destruct vs as [|a1 vs]; [destruct W|]. destruct W as [W1 W]. cbn [f_ty] in W1.
  destruct vs as [|? ?]; [clear W|destruct W].
  cbn [reflect_CustomCertificateExtension]. unfold reify_CustomCertificateExtension. cbn [CustomCertificateExtension_Name CustomCertificateExtension_Value]. fields_back.
  - match goal with |- ?f (?g ?v) = _ => match type of W0 with wt ?t _ => exact ((ltac:(auto 8 with reify) : vni t f g) v W0) end end.
  - match goal with |- ?f (?g ?v) = _ => match type of W1 with wt ?t _ => exact ((ltac:(auto 8 with reify) : vni t f g) v W1) end end.
Qed.
#[export] Hint Resolve inv_CustomCertificateExtension typed_CustomCertificateExtension vni_CustomCertificateExtension : reify.

Lemma kind_CertificateExtension : kind_of (TRef "CertificateExtension") = KStruct fields_CertificateExtension. Proof. reflexivity. Qed.
Lemma wt_CertificateExtension_inv v : wt (TRef "CertificateExtension") v -> exists vs, v = VStruct vs /\ zip_all (fun f x => wt (f_ty f) x) vs fields_CertificateExtension.
Proof.
  intros W. destruct v; cbn [wt] in W; rewrite kind_CertificateExtension in W; try discriminate; try contradiction. eauto.
Qed.
Lemma inv_CertificateExtension : inv reify_CertificateExtension reflect_CertificateExtension.
Proof. intros x; unfold reify_CertificateExtension; cbn [reflect_CertificateExtension]; rr; destruct x; reflexivity. Qed.
Lemma typed_CertificateExtension : typed (TRef "CertificateExtension") reify_CertificateExtension.
Proof.
  intros x; unfold reify_CertificateExtension; cbn [wt]; rewrite kind_CertificateExtension; unfold fields_CertificateExtension; cbn [zip_all f_ty]; fields_typed;
    match goal with |- wt ?t (?f ?x) => apply (ltac:(auto 8 with reify) : typed t f) end.
Qed.
Lemma vni_CertificateExtension : vni (TRef "CertificateExtension") reify_CertificateExtension reflect_CertificateExtension.
Proof.
  intros v W.
  apply wt_CertificateExtension_inv in W as (vs & -> & W). unfold fields_CertificateExtension in W.
  destruct vs as [|a0 vs]; [destruct W|]. destruct W as [W0 W]. cbn [f_ty] in W0.
  destruct vs as [|a1 vs]; [destruct W|]. destruct W as [W1 W]. cbn [f_ty] in W1.
  destruct vs as [|? ?]; [clear W|destruct W].
  cbn [reflect_CertificateExtension]. unfold reify_CertificateExtension. cbn [CertificateExtension_Common CertificateExtension_Custom]. fields_back.
  - match goal with |- ?f (?g ?v) = _ => match type of W0 with wt ?t _ => exact ((ltac:(auto 8 with reify) : vni t f g) v W0) end end.
  - match goal with |- ?f (?g ?v) = _ => match type of W1 with wt ?t _ => exact ((ltac:(auto 8 with reify) : vni t f g) v W1) end end.
Qed.
#[export] Hint Resolve inv_CertificateExtension typed_CertificateExtension vni_CertificateExtension : reify.

Lemma kind_RelatedCryptographicAsset : kind_of (TRef "RelatedCryptographicAsset") = KStruct fields_RelatedCryptographicAsset. Proof. reflexivity. Qed.
Lemma wt_RelatedCryptographicAsset_inv v : wt (TRef "RelatedCryptographicAsset") v -> exists vs, v = VStruct vs /\ zip_all (fun f x => wt (f_ty f) x) vs fields_RelatedCryptographicAsset.
Proof.
  intros W. destruct v; cbn [wt] in W; rewrite kind_RelatedCryptographicAsset in W; try discriminate; try contradiction. eauto.
Qed.
Lemma inv_RelatedCryptographicAsset : inv reify_RelatedCryptographicAsset reflect_RelatedCryptographicAsset.
Proof. intros x; unfold reify_RelatedCryptographicAsset; cbn [reflect_RelatedCryptographicAsset]; rr; destruct x; reflexivity. Qed.
Lemma typed_RelatedCryptographicAsset : typed (TRef "RelatedCryptographicAsset") reify_RelatedCryptographicAsset.
Proof.
  intros x; unfold reify_RelatedCryptographicAsset; cbn [wt]; rewrite kind_RelatedCryptographicAsset; unfold fields_RelatedCryptographicAsset; cbn [zip_all f_ty]; fields_typed;
    match goal with |- wt ?t (?f ?x) => apply (ltac:(auto 8 with reify) : typed t f) end.
Qed.
Lemma vni_RelatedCryptographicAsset : vni (TRef "RelatedCryptographicAsset") reify_RelatedCryptographicAsset reflect_RelatedCryptographicAsset.
Proof.
  intros v W.
  apply wt_RelatedCryptographicAsset_inv in W as (vs & -> & W). unfold fields_RelatedCryptographicAsset in W.
  destruct vs as [|a0 vs]; [destruct W|]. destruct W as [W0 W]. cbn [f_ty] in W0.
  destruct vs as [|a1 vs]; [destruct W|]. destruct W as [W1 W]. cbn [f_ty] in W1.
  destruct vs as [|? ?]; [clear W|destruct W].
  cbn [reflect_RelatedCryptographicAsset]. unfold reify_RelatedCryptographicAsset. cbn [RelatedCryptographicAsset_Type RelatedCryptographicAsset_Ref]. fields_back.
  - match goal with |- ?f (?g ?v) = _ => match type of W0 with wt ?t _ => exact ((ltac:(auto 8 with reify) : vni t f g) v W0) end end.
  - match goal with |- ?f (?g ?v) = _ => match type of W1 with wt ?t _ => exact ((ltac:(auto 8 with reify) : vni t f g) v W1) end end.
Qed.
#[export] Hint Resolve inv_RelatedCryptographicAsset typed_RelatedCryptographicAsset vni_RelatedCryptographicAsset : reify.

Lemma kind_CertificateProperties : kind_of (TRef "CertificateProperties") = KStruct fields_CertificateProperties. Proof. reflexivity. Qed.
Lemma wt_CertificateProperties_inv v : wt (TRef "CertificateProperties") v -> exists vs, v = VStruct vs /\ zip_all (fun f x => wt (f_ty f) x) vs fields_CertificateProperties.
Proof.
  intros W. destruct v; cbn [wt] in W; rewrite kind_CertificateProperties in W; try discriminate; try contradiction. eauto.
Qed.
Lemma inv_CertificateProperties : inv reify_CertificateProperties reflect_CertificateProperties.
Proof. intros x; unfold reify_CertificateProperties; cbn [reflect_CertificateProperties]; rr; destruct x; reflexivity. Qed.
Lemma typed_CertificateProperties : typed (TRef "CertificateProperties") reify_CertificateProperties.
Proof.
  intros x; unfold reify_CertificateProperties; cbn [wt]; rewrite kind_CertificateProperties; unfold fields_CertificateProperties; cbn [zip_all f_ty]; fields_typed;
    match goal with |- wt ?t (?f ?x) => apply (ltac:(auto 8 with reify) : typed t f) end.
Qed.
Lemma vni_CertificateProperties : vni (TRef "CertificateProperties") reify_CertificateProperties reflect_CertificateProperties.
Proof.
  intros v W.
  apply wt_CertificateProperties_inv in W as (vs & -> & W). unfold fields_CertificateProperties in W.
  destruct vs as [|a0 vs]; [destruct W|]. destruct W as [W0 W]. cbn [f_ty] in W0.
  destruct vs as [|a1 vs]; [destruct W|]. destruct W as [W1 W]. cbn [f_ty] in W1.
  destruct vs as [|a2 vs]; [destruct W|]. destruct W as [W2 W]. cbn [f_ty] in W2.
  destruct vs as [|a3 vs]; [destruct W|]. destruct W as [W3 W]. cbn [f_ty] in W3.
  destruct vs as [|a4 vs]; [destruct W|]. destruct W as [W4 W]. cbn [f_ty] in W4.
  destruct vs as [|a5 vs]; [destruct W|]. destruct W as [W5 W]. cbn [f_ty] in W5.
  destruct vs as [|a6 vs]; [destruct W|]. destruct W as [W6 W]. cbn [f_ty] in W6.
  destruct vs as [|a7 vs]; [destruct W|]. destruct W as [W7 W]. cbn [f_ty] in W7.
  destruct vs as [|a8 vs]; [destruct W|]. destruct W as [W8 W]. cbn [f_ty] in W8.
  destruct vs as [|a9 vs]; [destruct W|]. destruct W as [W9 W]. cbn [f_ty] in W9.
  destruct vs as [|a10 vs]; [destruct W|]. destruct W as [W10 W]. cbn [f_ty] in W10.
  destruct vs as [|a11 vs]; [destruct W|]. destruct W as [W11 W]. cbn [f_ty] in W11.
  destruct vs as [|a12 vs]; [destruct W|]. destruct W as [W12 W]. cbn [f_ty] in W12.
  destruct vs as [|a13 vs]; [destruct W|]. destruct W as [W13 W]. cbn [f_ty] in W13.
  destruct vs as [|a14 vs]; [destruct W|]. destruct W as [W14 W]. cbn [f_ty] in W14.
  destruct vs as [|a15 vs]; [destruct W|]. destruct W as [W15 W]. cbn [f_ty] in W15.
  destruct vs as [|a16 vs]; [destruct W|]. destruct W as [W16 W]. cbn [f_ty] in W16.
  destruct vs as [|a17 vs]; [destruct W|]. destruct W as [W17 W]. cbn [f_ty] in W17.
  destruct vs as [|a18 vs]; [destruct W|]. destruct W as [W18 W]. cbn [f_ty] in W18.
  destruct vs as [|? ?]; [clear W|destruct W].
  cbn [reflect_CertificateProperties]. unfold reify_CertificateProperties. cbn [CertificateProperties_SerialNumber CertificateProperties_SubjectName CertificateProperties_IssuerName CertificateProperties_NotValidBefore CertificateProperties_NotValidAfter CertificateProperties_SignatureAlgorithmRef CertificateProperties_SubjectPublicKeyRef CertificateProperties_CertificateFormat CertificateProperties_CertificateExtension CertificateProperties_CertificateFileExtension CertificateProperties_Fingerprint CertificateProperties_CertificateState CertificateProperties_CertificateExtensions CertificateProperties_RelatedCryptographicAssets CertificateProperties_CreationDate CertificateProperties_ActivationDate CertificateProperties_DeactivationDate CertificateProperties_RevocationDate CertificateProperties_DestructionDate]. fields_back.
  - match goal with |- ?f (?g ?v) = _ => match type of W0 with wt ?t _ => exact ((ltac:(auto 8 with reify) : vni t f g) v W0) end end.
  - match goal with |- ?f (?g ?v) = _ => match type of W1 with wt ?t _ => exact ((ltac:(auto 8 with reify) : vni t f g) v W1) end end.
  - match goal with |- ?f (?g ?v) = _ => match type of W2 with wt ?t _ => exact ((ltac:(auto 8 with reify) : vni t f g) v W2) end end.
  - match goal with |- ?f (?g ?v) = _ => match type of W3 with wt ?t _ => exact ((ltac:(auto 8 with reify) : vni t f g) v W3) end end.
  - match goal with |- ?f (?g ?v) = _ => match type of W4 with wt ?t _ => exact ((ltac:(auto 8 with reify) : vni t f g) v W4) end end.
  - match goal with |- ?f (?g ?v) = _ => match type of W5 with wt ?t _ => exact ((ltac:(auto 8 with reify) : vni t f g) v W5) end end.
  - match goal with |- ?f (?g ?v) = _ => match type of W6 with wt ?t _ => exact ((ltac:(auto 8 with reify) : vni t f g) v W6) end end.
  - match goal with |- ?f (?g ?v) = _ => match type of W7 with wt ?t _ => exact ((ltac:(auto 8 with reify) : vni t f g) v W7) end end.
  - match goal with |- ?f (?g ?v) = _ => match type of W8 with wt ?t _ => exact ((ltac:(auto 8 with reify) : vni t f g) v W8) end end.
  - match goal with |- ?f (?g ?v) = _ => match type of W9 with wt ?t _ => exact ((ltac:(auto 8 with reify) : vni t f g) v W9) end end.
  - match goal with |- ?f (?g ?v) = _ => match type of W10 with wt ?t _ => exact ((ltac:(auto 8 with reify) : vni t f g) v W10) end end.
  - match goal with |- ?f (?g ?v) = _ => match type of W11 with wt ?t _ => exact ((ltac:(auto 8 with reify) : vni t f g) v W11) end end.
  - match goal with |- ?f (?g ?v) = _ => match type of W12 with wt ?t _ => exact ((ltac:(auto 8 with reify) : vni t f g) v W12) end end.
  - match goal with |- ?f (?g ?v) = _ => match type of W13 with wt ?t _ => exact ((ltac:(auto 8 with reify) : vni t f g) v W13) end end.
  - match goal with |- ?f (?g ?v) = _ => match type of W14 with wt ?t _ => exact ((ltac:(auto 8 with reify) : vni t f g) v W14) end end.
  - match goal with |- ?f (?g ?v) = _ => match type of W15 with wt ?t _ => exact ((ltac:(auto 8 with reify) : vni t f g) v W15) end end.
  - match goal with |- ?f (?g ?v) = _ => match type of W16 with wt ?t _ => exact ((ltac:(auto 8 with reify) : vni t f g) v W16) end end.
  - match goal with |- ?f (?g ?v) = _ => match type of W17 with wt ?t _ => exact ((ltac:(auto 8 with reify) : vni t f g) v W17) end end.
  - match goal with |- ?f (?g ?v) = _ => match type of W18 with wt ?t _ => exact ((ltac:(auto 8 with reify) : vni t f g) v W18) end end.
Qed.
#[export] Hint Resolve inv_CertificateProperties typed_CertificateProperties vni_CertificateProperties : reify.

Lemma kind_SecuredBy : kind_of (TRef "SecuredBy") = KStruct fields_SecuredBy. Proof. reflexivity. Qed.
Lemma wt_SecuredBy_inv v : wt (TRef "SecuredBy") v -> exists vs, v = VStruct vs /\ zip_all (fun f x => wt (f_ty f) x) vs fields_SecuredBy.
Proof.
  intros W. destruct v; cbn [wt] in W; rewrite kind_SecuredBy in W; try discriminate; try contradiction. eauto.
Qed.
Lemma inv_SecuredBy : inv reify_SecuredBy reflect_SecuredBy.
Proof. intros x; unfold reify_SecuredBy; cbn [reflect_SecuredBy]; rr; destruct x; reflexivity. Qed.
Lemma typed_SecuredBy : typed (TRef "SecuredBy") reify_SecuredBy.
Proof.
  intros x; unfold reify_SecuredBy; cbn [wt]; rewrite kind_SecuredBy; unfold fields_SecuredBy; cbn [zip_all f_ty]; fields_typed;
    match goal with |- wt ?t (?f ?x) => apply (ltac:(auto 8 with reify) : typed t f) end.
Qed.
Lemma vni_SecuredBy : vni (TRef "SecuredBy") reify_SecuredBy reflect_SecuredBy.
Proof.
  intros v W.
  apply wt_SecuredBy_inv in W as (vs & -> & W). unfold fields_SecuredBy in W.
  destruct vs as [|a0 vs]; [destruct W|]. destruct W as [W0 W]. cbn [f_ty] in W0.
  destruct vs as [|a1 vs]; [destruct W|]. destruct W as [W1 W]. cbn [f_ty] in W1.
  destruct vs as [|? ?]; [clear W|destruct W].
  cbn [reflect_SecuredBy]. unfold reify_SecuredBy. cbn [SecuredBy_Mechanism SecuredBy_AlgorithmRef]. fields_back.
  - match goal with |- ?f (?g ?v) = _ => match type of W0 with wt ?t _ => exact ((ltac:(auto 8 with reify) : vni t f g) v W0) end end.
  - match goal with |- ?f (?g ?v) = _ => match type of W1 with wt ?t _ => exact ((ltac:(auto 8 with reify) : vni t f g) v W1) end end.
Qed.
#[export] Hint Resolve inv_SecuredBy typed_SecuredBy vni_SecuredBy : reify.

Lemma kind_RelatedCryptoMaterialProperties : kind_of (TRef "RelatedCryptoMaterialProperties") = KStruct fields_RelatedCryptoMaterialProperties. Proof. reflexivity. Qed.
Lemma wt_RelatedCryptoMaterialProperties_inv v : wt (TRef "RelatedCryptoMaterialProperties") v -> exists vs, v = VStruct vs /\ zip_all (fun f x => wt (f_ty f) x) vs fields_RelatedCryptoMaterialProperties.
Proof.
  intros W. destruct v; cbn [wt] in W; rewrite kind_RelatedCryptoMaterialProperties in W; try discriminate; try contradiction. eauto.
Qed.
Lemma inv_RelatedCryptoMaterialProperties : inv reify_RelatedCryptoMaterialProperties reflect_RelatedCryptoMaterialProperties.
Proof. intros x; unfold reify_RelatedCryptoMaterialProperties; cbn [reflect_RelatedCryptoMaterialProperties]; rr; destruct x; reflexivity. Qed.
Lemma typed_RelatedCryptoMaterialProperties : typed (TRef "RelatedCryptoMaterialProperties") reify_RelatedCryptoMaterialProperties.
Proof.
  intros x; unfold reify_RelatedCryptoMaterialProperties; cbn [wt]; rewrite kind_RelatedCryptoMaterialProperties; unfold fields_RelatedCryptoMaterialProperties; cbn [zip_all f_ty]; fields_typed;
    match goal with |- wt ?t (?f ?x) => apply (ltac:(auto 8 with reify) : typed t f) end.
Qed.
Lemma vni_RelatedCryptoMaterialProperties : vni (TRef "RelatedCryptoMaterialProperties") reify_RelatedCryptoMaterialProperties reflect_RelatedCryptoMaterialProperties.
Proof.
  intros v W.
  apply wt_RelatedCryptoMaterialProperties_inv in W as (vs & -> & W). unfold fields_RelatedCryptoMaterialProperties in W.
  destruct vs as [|a0 vs]; [destruct W|]. destruct W as [W0 W]. cbn [f_ty] in W0.
  destruct vs as [|a1 vs]; [destruct W|]. destruct W as [W1 W]. cbn [f_ty] in W1.
  destruct vs as [|a2 vs]; [destruct W|]. destruct W as [W2 W]. cbn [f_ty] in W2.
  destruct vs as [|a3 vs]; [destruct W|]. destruct W as [W3 W]. cbn [f_ty] in W3.
  destruct vs as [|a4 vs]; [destruct W|]. destruct W as [W4 W]. cbn [f_ty] in W4.
  destruct vs as [|a5 vs]; [destruct W|]. destruct W as [W5 W]. cbn [f_ty] in W5.
  destruct vs as [|a6 vs]; [destruct W|]. destruct W as [W6 W]. cbn [f_ty] in W6.
  destruct vs as [|a7 vs]; [destruct W|]. destruct W as [W7 W]. cbn [f_ty] in W7.
  destruct vs as [|a8 vs]; [destruct W|]. destruct W as [W8 W]. cbn [f_ty] in W8.
  destruct vs as [|a9 vs]; [destruct W|]. destruct W as [W9 W]. cbn [f_ty] in W9.
  destruct vs as [|a10 vs]; [destruct W|]. destruct W as [W10 W]. cbn [f_ty] in W10.
  destruct vs as [|a11 vs]; [destruct W|]. destruct W as [W11 W]. cbn [f_ty] in W11.
  destruct vs as [|a12 vs]; [destruct W|]. destruct W as [W12 W]. cbn [f_ty] in W12.
  destruct vs as [|a13 vs]; [destruct W|]. destruct W as [W13 W]. cbn [f_ty] in W13.
  destruct vs as [|? ?]; [clear W|destruct W].
  cbn [reflect_RelatedCryptoMaterialProperties]. unfold reify_RelatedCryptoMaterialProperties. cbn [RelatedCryptoMaterialProperties_Type RelatedCryptoMaterialProperties_ID RelatedCryptoMaterialProperties_State RelatedCryptoMaterialProperties_AlgorithmRef RelatedCryptoMaterialProperties_CreationDate RelatedCryptoMaterialProperties_ActivationDate RelatedCryptoMaterialProperties_UpdateDate RelatedCryptoMaterialProperties_ExpirationDate RelatedCryptoMaterialProperties_Value RelatedCryptoMaterialProperties_Size RelatedCryptoMaterialProperties_Format RelatedCryptoMaterialProperties_SecuredBy RelatedCryptoMaterialProperties_Fingerprint RelatedCryptoMaterialProperties_RelatedCryptographicAssets]. fields_back.
  - match goal with |- ?f (?g ?v) = _ => match type of W0 with wt ?t _ => exact ((ltac:(auto 8 with reify) : vni t f g) v W0) end end.
  - match goal with |- ?f (?g ?v) = _ => match type of W1 with wt ?t _ => exact ((ltac:(auto 8 with reify) : vni t f g) v W1) end end.
  - match goal with |- ?f (?g ?v) = _ => match type of W2 with wt ?t _ => exact ((ltac:(auto 8 with reify) : vni t f g) v W2) end end.
  - match goal with |- ?f (?g ?v) = _ => match type of W3 with wt ?t _ => exact ((ltac:(auto 8 with reify) : vni t f g) v W3) end end.
  - match goal with |- ?f (?g ?v) = _ => match type of W4 with wt ?t _ => exact ((ltac:(auto 8 with reify) : vni t f g) v W4) end end.
  - match goal with |- ?f (?g ?v) = _ => match type of W5 with wt ?t _ => exact ((ltac:(auto 8 with reify) : vni t f g) v W5) end end.
  - match goal with |- ?f (?g ?v) = _ => match type of W6 with wt ?t _ => exact ((ltac:(auto 8 with reify) : vni t f g) v W6) end end.
  - match goal with |- ?f (?g ?v) = _ => match type of W7 with wt ?t _ => exact ((ltac:(auto 8 with reify) : vni t f g) v W7) end end.
  - match goal with |- ?f (?g ?v) = _ => match type of W8 with wt ?t _ => exact ((ltac:(auto 8 with reify) : vni t f g) v W8) end end.
  - match goal with |- ?f (?g ?v) = _ => match type of W9 with wt ?t _ => exact ((ltac:(auto 8 with reify) : vni t f g) v W9) end end.
  - match goal with |- ?f (?g ?v) = _ => match type of W10 with wt ?t _ => exact ((ltac:(auto 8 with reify) : vni t f g) v W10) end end.
  - match goal with |- ?f (?g ?v) = _ => match type of W11 with wt ?t _ => exact ((ltac:(auto 8 with reify) : vni t f g) v W11) end end.
  - match goal with |- ?f (?g ?v) = _ => match type of W12 with wt ?t _ => exact ((ltac:(auto 8 with reify) : vni t f g) v W12) end end.
  - match goal with |- ?f (?g ?v) = _ => match type of W13 with wt ?t _ => exact ((ltac:(auto 8 with reify) : vni t f g) v W13) end end.
Qed.
#[export] Hint Resolve inv_RelatedCryptoMaterialProperties typed_RelatedCryptoMaterialProperties vni_RelatedCryptoMaterialProperties : reify.

Lemma kind_CipherSuite : kind_of (TRef "CipherSuite") = KStruct fields_CipherSuite. Proof. reflexivity. Qed.
Lemma wt_CipherSuite_inv v : wt (TRef "CipherSuite") v -> exists vs, v = VStruct vs /\ zip_all (fun f x => wt (f_ty f) x) vs fields_CipherSuite.
Proof.
  intros W. destruct v; cbn [wt] in W; rewrite kind_CipherSuite in W; try discriminate; try contradiction. eauto.
Qed.
Lemma inv_CipherSuite : inv reify_CipherSuite reflect_CipherSuite.
Proof. intros x; unfold reify_CipherSuite; cbn [reflect_CipherSuite]; rr; destruct x; reflexivity. Qed.
Lemma typed_CipherSuite : typed (TRef "CipherSuite") reify_CipherSuite.
Proof.
  intros x; unfold reify_CipherSuite; cbn [wt]; rewrite kind_CipherSuite; unfold fields_CipherSuite; cbn [zip_all f_ty]; fields_typed;
    match goal with |- wt ?t (?f ?x) => apply (ltac:(auto 8 with reify) : typed t f) end.
Qed.
Lemma vni_CipherSuite : vni (TRef "CipherSuite") reify_CipherSuite reflect_CipherSuite.
Proof.
  intros v W.
  apply wt_CipherSuite_inv in W as (vs & -> & W). unfold fields_CipherSuite in W.
  destruct vs as [|a0 vs]; [destruct W|]. destruct W as [W0 W]. cbn [f_ty] in W0.
  destruct vs as [|a1 vs]; [destruct W|]. destruct W as [W1 W]. cbn [f_ty] in W1.
  destruct vs as [|a2 vs]; [destruct W|]. destruct W as [W2 W]. cbn [f_ty] in W2.
  destruct vs as [|a3 vs]; [destruct W|]. destruct W as [W3 W]. cbn [f_ty] in W3.
  destruct vs as [|a4 vs]; [destruct W|]. destruct W as [W4 W]. cbn [f_ty] in W4.
  destruct vs as [|? ?]; [clear W|destruct W].
  cbn [reflect_CipherSuite]. unfold reify_CipherSuite. cbn [CipherSuite_Name CipherSuite_Algorithms CipherSuite_Identifiers CipherSuite_TLSGroups CipherSuite_TLSSignatureSchemes]. fields_back.
  - match goal with |- ?f (?g ?v) = _ => match type of W0 with wt ?t _ => exact ((ltac:(auto 8 with reify) : vni t f g) v W0) end end.
  - match goal with |- ?f (?g ?v) = _ => match type of W1 with wt ?t _ => exact ((ltac:(auto 8 with reify) : vni t f g) v W1) end end.
  - match goal with |- ?f (?g ?v) = _ => match type of W2 with wt ?t _ => exact ((ltac:(auto 8 with reify) : vni t f g) v W2) end end.
  - match goal with |- ?f (?g ?v) = _ => match type of W3 with wt ?t _ => exact ((ltac:(auto 8 with reify) : vni t f g) v W3) end end.
  - match goal with |- ?f (?g ?v) = _ => match type of W4 with wt ?t _ => exact ((ltac:(auto 8 with reify) : vni t f g) v W4) end end.
Qed.
#[export] Hint Resolve inv_CipherSuite typed_CipherSuite vni_CipherSuite : reify.

Lemma kind_IKEv2Enc : kind_of (TRef "IKEv2Enc") = KStruct fields_IKEv2Enc. Proof. reflexivity. Qed.
Lemma wt_IKEv2Enc_inv v : wt (TRef "IKEv2Enc") v -> exists vs, v = VStruct vs /\ zip_all (fun f x => wt (f_ty f) x) vs fields_IKEv2Enc.
Proof.
  intros W. destruct v; cbn [wt] in W; rewrite kind_IKEv2Enc in W; try discriminate; try contradiction. eauto.
Qed.
Lemma inv_IKEv2Enc : inv reify_IKEv2Enc reflect_IKEv2Enc.
Proof. intros x; unfold reify_IKEv2Enc; cbn [reflect_IKEv2Enc]; rr; destruct x; reflexivity. Qed.
Lemma typed_IKEv2Enc : typed (TRef "IKEv2Enc") reify_IKEv2Enc.
Proof.
  intros x; unfold reify_IKEv2Enc; cbn [wt]; rewrite kind_IKEv2Enc; unfold fields_IKEv2Enc; cbn [zip_all f_ty]; fields_typed;
    match goal with |- wt ?t (?f ?x) => apply (ltac:(auto 8 with reify) : typed t f) end.
Qed.
Lemma vni_IKEv2Enc : vni (TRef "IKEv2Enc") reify_IKEv2Enc reflect_IKEv2Enc.
Proof.
  intros v W.
  apply wt_IKEv2Enc_inv in W as (vs & -> & W). unfold fields_IKEv2Enc in W.
  destruct vs as [|a0 vs]; [destruct W|]. destruct W as [W0 W]. cbn [f_ty] in W0.
  destruct vs as [|a1 vs]; [destruct W|]. destruct W as [W1 W]. cbn [f_ty] in W1.
  destruct vs as [|a2 vs]; [destruct W|]. destruct W as [W2 W]. cbn [f_ty] in W2.
  destruct vs as [|a3 vs]; [destruct W|]. destruct W as [W3 W]. cbn [f_ty] in W3.
  destruct vs as [|? ?]; [clear W|destruct W].
  cbn [reflect_IKEv2Enc]. unfold reify_IKEv2Enc. cbn [IKEv2Enc_BOMRef IKEv2Enc_Name IKEv2Enc_KeyLength IKEv2Enc_Algorithm]. fields_back.
  - match goal with |- ?f (?g ?v) = _ => match type of W0 with wt ?t _ => exact ((ltac:(auto 8 with reify) : vni t f g) v W0) end end.
  - match goal with |- ?f (?g ?v) = _ => match type of W1 with wt ?t _ => exact ((ltac:(auto 8 with reify) : vni t f g) v W1) end end.
  - match goal with |- ?f (?g ?v) = _ => match type of W2 with wt ?t _ => exact ((ltac:(auto 8 with reify) : vni t f g) v W2) end end.
  - match goal with |- ?f (?g ?v) = _ => match type of W3 with wt ?t _ => exact ((ltac:(auto 8 with reify) : vni t f g) v W3) end end.
Qed.
#[export] Hint Resolve inv_IKEv2Enc typed_IKEv2Enc vni_IKEv2Enc : reify.

Lemma kind_IKEv2Prf : kind_of (TRef "IKEv2Prf") = KStruct fields_IKEv2Prf. Proof. reflexivity. Qed.
Lemma wt_IKEv2Prf_inv v : wt (TRef "IKEv2Prf") v -> exists vs, v = VStruct vs /\ zip_all (fun f x => wt (f_ty f) x) vs fields_IKEv2Prf.
Proof.
  intros W. destruct v; cbn [wt] in W; rewrite kind_IKEv2Prf in W; try discriminate; try contradiction. eauto.
Qed.
Lemma inv_IKEv2Prf : inv reify_IKEv2Prf reflect_IKEv2Prf.
Proof. intros x; unfold reify_IKEv2Prf; cbn [reflect_IKEv2Prf]; rr; destruct x; reflexivity. Qed.
Lemma typed_IKEv2Prf : typed (TRef "IKEv2Prf") reify_IKEv2Prf.
Proof.
  intros x; unfold reify_IKEv2Prf; cbn [wt]; rewrite kind_IKEv2Prf; unfold fields_IKEv2Prf; cbn [zip_all f_ty]; fields_typed;
    match goal with |- wt ?t (?f ?x) => apply (ltac:(auto 8 with reify) : typed t f) end.
Qed.
Lemma vni_IKEv2Prf : vni (TRef "IKEv2Prf") reify_IKEv2Prf reflect_IKEv2Prf.
Proof.
  intros v W.
  apply wt_IKEv2Prf_inv in W as (vs & -> & W). unfold fields_IKEv2Prf in W.
  destruct vs as [|a0 vs]; [destruct W|]. destruct W as [W0 W]. cbn [f_ty] in W0.
  destruct vs as [|a1 vs]; [destruct W|]. destruct W as [W1 W]. cbn [f_ty] in W1.
  destruct vs as [|a2 vs]; [destruct W|]. destruct W as [W2 W]. cbn [f_ty] in W2.
  destruct vs as [|? ?]; [clear W|destruct W].
  cbn [reflect_IKEv2Prf]. unfold reify_IKEv2Prf. cbn [IKEv2Prf_BOMRef IKEv2Prf_Name IKEv2Prf_Algorithm]. fields_back.
  - match goal with |- ?f (?g ?v) = _ => match type of W0 with wt ?t _ => exact ((ltac:(auto 8 with reify) : vni t f g) v W0) end end.
  - match goal with |- ?f (?g ?v) = _ => match type of W1 with wt ?t _ => exact ((ltac:(auto 8 with reify) : vni t f g) v W1) end end.
  - match goal with |- ?f (?g ?v) = _ => match type of W2 with wt ?t _ => exact ((ltac:(auto 8 with reify) : vni t f g) v W2) end end.
Qed.
#[export] Hint Resolve inv_IKEv2Prf typed_IKEv2Prf vni_IKEv2Prf : reify.

Lemma kind_IKEv2Integ : kind_of (TRef "IKEv2Integ") = KStruct fields_IKEv2Integ. Proof. reflexivity. Qed.
Lemma wt_IKEv2Integ_inv v : wt (TRef "IKEv2Integ") v -> exists vs, v = VStruct vs /\ zip_all (fun f x => wt (f_ty f) x) vs fields_IKEv2Integ.
Proof.
  intros W. destruct v; cbn [wt] in W; rewrite kind_IKEv2Integ in W; try discriminate; try contradiction. eauto.
Qed.
Lemma inv_IKEv2Integ : inv reify_IKEv2Integ reflect_IKEv2Integ.
Proof. intros x; unfold reify_IKEv2Integ; cbn [reflect_IKEv2Integ]; rr; destruct x; reflexivity. Qed.
Lemma typed_IKEv2Integ : typed (TRef "IKEv2Integ") reify_IKEv2Integ.
Proof.
  intros x; unfold reify_IKEv2Integ; cbn [wt]; rewrite kind_IKEv2Integ; unfold fields_IKEv2Integ; cbn [zip_all f_ty]; fields_typed;
    match goal with |- wt ?t (?f ?x) => apply (ltac:(auto 8 with reify) : typed t f) end.
Qed.
Lemma vni_IKEv2Integ : vni (TRef "IKEv2Integ") reify_IKEv2Integ reflect_IKEv2Integ.
Proof.
  intros v W.
  apply wt_IKEv2Integ_inv in W as (vs & -> & W). unfold fields_IKEv2Integ in W.
  destruct vs as [|a0 vs]; [destruct W|]. destruct W as [W0 W]. cbn [f_ty] in W0.
  destruct vs as [|a1 vs]; [destruct W|]. destruct W as [W1 W]. cbn [f_ty] in W1.
  destruct vs as [|a2 vs]; [destruct W|]. destruct W as [W2 W]. cbn [f_ty] in W2.
  destruct vs as [|? ?]; [clear W|destruct W].
  cbn [reflect_IKEv2Integ]. unfold reify_IKEv2Integ. cbn [IKEv2Integ_BOMRef IKEv2Integ_Name IKEv2Integ_Algorithm]. fields_back.
  - match goal with |- ?f (?g ?v) = _ => match type of W0 with wt ?t _ => exact ((ltac:(auto 8 with reify) : vni t f g) v W0) end end.
  - match goal with |- ?f (?g ?v) = _ => match type of W1 with wt ?t _ => exact ((ltac:(auto 8 with reify) : vni t f g) v W1) end end.
  - match goal with |- ?f (?g ?v) = _ => match type of W2 with wt ?t _ => exact ((ltac:(auto 8 with reify) : vni t f g) v W2) end end.
Qed.
#[export] Hint Resolve inv_IKEv2Integ typed_IKEv2Integ vni_IKEv2Integ : reify.

Lemma kind_IKEv2Ke : kind_of (TRef "IKEv2Ke") = KStruct fields_IKEv2Ke. Proof. reflexivity. Qed.
Lemma wt_IKEv2Ke_inv v : wt (TRef "IKEv2Ke") v -> exists vs, v = VStruct vs /\ zip_all (fun f x => wt (f_ty f) x) vs fields_IKEv2Ke.
Proof.
  intros W. destruct v; cbn [wt] in W; rewrite kind_IKEv2Ke in W; try discriminate; try contradiction. eauto.
Qed.
Lemma inv_IKEv2Ke : inv reify_IKEv2Ke reflect_IKEv2Ke.
Proof. intros x; unfold reify_IKEv2Ke; cbn [reflect_IKEv2Ke]; rr; destruct x; reflexivity. Qed.
Lemma typed_IKEv2Ke : typed (TRef "IKEv2Ke") reify_IKEv2Ke.
Proof.
  intros x; unfold reify_IKEv2Ke; cbn [wt]; rewrite kind_IKEv2Ke; unfold fields_IKEv2Ke; cbn [zip_all f_ty]; fields_typed;
    match goal with |- wt ?t (?f ?x) => apply (ltac:(auto 8 with reify) : typed t f) end.
Qed.
Lemma vni_IKEv2Ke : vni (TRef "IKEv2Ke") reify_IKEv2Ke reflect_IKEv2Ke.
Proof.
  intros v W.
  apply wt_IKEv2Ke_inv in W as (vs & -> & W). unfold fields_IKEv2Ke in W.
  destruct vs as [|a0 vs]; [destruct W|]. destruct W as [W0 W]. cbn [f_ty] in W0.
  destruct vs as [|a1 vs]; [destruct W|]. destruct W as [W1 W]. cbn [f_ty] in W1.
  destruct vs as [|a2 vs]; [destruct W|]. destruct W as [W2 W]. cbn [f_ty] in W2.
  destruct vs as [|? ?]; [clear W|destruct W].
  cbn [reflect_IKEv2Ke]. unfold reify_IKEv2Ke. cbn [IKEv2Ke_BOMRef IKEv2Ke_Group IKEv2Ke_Algorithm]. fields_back.
  - match goal with |- ?f (?g ?v) = _ => match type of W0 with wt ?t _ => exact ((ltac:(auto 8 with reify) : vni t f g) v W0) end end.
  - match goal with |- ?f (?g ?v) = _ => match type of W1 with wt ?t _ => exact ((ltac:(auto 8 with reify) : vni t f g) v W1) end end.
  - match goal with |- ?f (?g ?v) = _ => match type of W2 with wt ?t _ => exact ((ltac:(auto 8 with reify) : vni t f g) v W2) end end.
Qed.
#[export] Hint Resolve inv_IKEv2Ke typed_IKEv2Ke vni_IKEv2Ke : reify.

Lemma kind_IKEv2Auth : kind_of (TRef "IKEv2Auth") = KStruct fields_IKEv2Auth. Proof. reflexivity. Qed.
Lemma wt_IKEv2Auth_inv v : wt (TRef "IKEv2Auth") v -> exists vs, v = VStruct vs /\ zip_all (fun f x => wt (f_ty f) x) vs fields_IKEv2Auth.
Proof.
  intros W. destruct v; cbn [wt] in W; rewrite kind_IKEv2Auth in W; try discriminate; try contradiction. eauto.
Qed.
Lemma inv_IKEv2Auth : inv reify_IKEv2Auth reflect_IKEv2Auth.
Proof. intros x; unfold reify_IKEv2Auth; cbn [reflect_IKEv2Auth]; rr; destruct x; reflexivity. Qed.
Lemma typed_IKEv2Auth : typed (TRef "IKEv2Auth") reify_IKEv2Auth.
Proof.
  intros x; unfold reify_IKEv2Auth; cbn [wt]; rewrite kind_IKEv2Auth; unfold fields_IKEv2Auth; cbn [zip_all f_ty]; fields_typed;
    match goal with |- wt ?t (?f ?x) => apply (ltac:(auto 8 with reify) : typed t f) end.
Qed.
Lemma vni_IKEv2Auth : vni (TRef "IKEv2Auth") reify_IKEv2Auth reflect_IKEv2Auth.
Proof.
  intros v W.
  apply wt_IKEv2Auth_inv in W as (vs & -> & W). unfold fields_IKEv2Auth in W.
  destruct vs as [|a0 vs]; [destruct W|]. destruct W as [W0 W]. cbn [f_ty] in W0.
  destruct vs as [|a1 vs]; [destruct W|]. destruct W as [W1 W]. cbn [f_ty] in W1.
  destruct vs as [|a2 vs]; [destruct W|]. destruct W as [W2 W]. cbn [f_ty] in W2.
  destruct vs as [|? ?]; [clear W|destruct W].
  cbn [reflect_IKEv2Auth]. unfold reify_IKEv2Auth. cbn [IKEv2Auth_BOMRef IKEv2Auth_Name IKEv2Auth_Algorithm]. fields_back.
  - match goal with |- ?f (?g ?v) = _ => match type of W0 with wt ?t _ => exact ((ltac:(auto 8 with reify) : vni t f g) v W0) end end.
  - match goal with |- ?f (?g ?v) = _ => match type of W1 with wt ?t _ => exact ((ltac:(auto 8 with reify) : vni t f g) v W1) end end.
  - match goal with |- ?f (?g ?v) = _ => match type of W2 with wt ?t _ => exact ((ltac:(auto 8 with reify) : vni t f g) v W2) end end.
Qed.
#[export] Hint Resolve inv_IKEv2Auth typed_IKEv2Auth vni_IKEv2Auth : reify.

Lemma kind_IKEv2TransformTypes : kind_of (TRef "IKEv2TransformTypes") = KStruct fields_IKEv2TransformTypes. Proof. reflexivity. Qed.
Lemma wt_IKEv2TransformTypes_inv v : wt (TRef "IKEv2TransformTypes") v -> exists vs, v = VStruct vs /\ zip_all (fun f x => wt (f_ty f) x) vs fields_IKEv2TransformTypes.
Proof.
  intros W. destruct v; cbn [wt] in W; rewrite kind_IKEv2TransformTypes in W; try discriminate; try contradiction. eauto.
Qed.
Lemma inv_IKEv2TransformTypes : inv reify_IKEv2TransformTypes reflect_IKEv2TransformTypes.
Proof. intros x; unfold reify_IKEv2TransformTypes; cbn [reflect_IKEv2TransformTypes]; rr; destruct x; reflexivity. Qed.
Lemma typed_IKEv2TransformTypes : typed (TRef "IKEv2TransformTypes") reify_IKEv2TransformTypes.
Proof.
  intros x; unfold reify_IKEv2TransformTypes; cbn [wt]; rewrite kind_IKEv2TransformTypes; unfold fields_IKEv2TransformTypes; cbn [zip_all f_ty]; fields_typed;
    match goal with |- wt ?t (?f ?x) => apply (ltac:(auto 8 with reify) : typed t f) end.
Qed.
Lemma vni_IKEv2TransformTypes : vni (TRef "IKEv2TransformTypes") reify_IKEv2TransformTypes reflect_IKEv2TransformTypes.
Proof.
  intros v W.
  apply wt_IKEv2TransformTypes_inv in W as (vs & -> & W). unfold fields_IKEv2TransformTypes in W.
  destruct vs as [|a0 vs]; [destruct W|]. destruct W as [W0 W]. cbn [f_ty] in W0.
  destruct vs as [|a1 vs]; [destruct W|]. destruct W as [W1 W]. cbn [f_ty] in W1.
  destruct vs as [|a2 vs]; [destruct W|]. destruct W as [W2 W]. cbn [f_ty] in W2.
  destruct vs as [|a3 vs]; [destruct W|]. destruct W as [W3 W]. cbn [f_ty] in W3.
  destruct vs as [|a4 vs]; [destruct W|]. destruct W as [W4 W]. cbn [f_ty] in W4.
  destruct vs as [|a5 vs]; [destruct W|]. destruct W as [W5 W]. cbn [f_ty] in W5.
  destruct vs as [|? ?]; [clear W|destruct W].
  cbn [reflect_IKEv2TransformTypes]. unfold reify_IKEv2TransformTypes. cbn [IKEv2TransformTypes_Encr IKEv2TransformTypes_PRF IKEv2TransformTypes_Integ IKEv2TransformTypes_KE IKEv2TransformTypes_ESN IKEv2TransformTypes_Auth]. fields_back.
  - match goal with |- ?f (?g ?v) = _ => match type of W0 with wt ?t _ => exact ((ltac:(auto 8 with reify) : vni t f g) v W0) end end.
  - match goal with |- ?f (?g ?v) = _ => match type of W1 with wt ?t _ => exact ((ltac:(auto 8 with reify) : vni t f g) v W1) end end.
  - match goal with |- ?f (?g ?v) = _ => match type of W2 with wt ?t _ => exact ((ltac:(auto 8 with reify) : vni t f g) v W2) end end.
  - match goal with |- ?f (?g ?v) = _ => match type of W3 with wt ?t _ => exact ((ltac:(auto 8 with reify) : vni t f g) v W3) end end.
  - match goal with |- ?f (?g ?v) = _ => match type of W4 with wt ?t _ => exact ((ltac:(auto 8 with reify) : vni t f g) v W4) end end.
  - match goal with |- ?f (?g ?v) = _ => match type of W5 with wt ?t _ => exact ((ltac:(auto 8 with reify) : vni t f g) v W5) end end.
Qed.
#[export] Hint Resolve inv_IKEv2TransformTypes typed_IKEv2TransformTypes vni_IKEv2TransformTypes : reify.

Lemma kind_CryptoProtocolProperties : kind_of (TRef "CryptoProtocolProperties") = KStruct fields_CryptoProtocolProperties. Proof. reflexivity. Qed.
Lemma wt_CryptoProtocolProperties_inv v : wt (TRef "CryptoProtocolProperties") v -> exists vs, v = VStruct vs /\ zip_all (fun f x => wt (f_ty f) x) vs fields_CryptoProtocolProperties.
Proof.
  intros W. destruct v; cbn [wt] in W; rewrite kind_CryptoProtocolProperties in W; try discriminate; try contradiction. eauto.
Qed.
Lemma inv_CryptoProtocolProperties : inv reify_CryptoProtocolProperties reflect_CryptoProtocolProperties.
Proof. intros x; unfold reify_CryptoProtocolProperties; cbn [reflect_CryptoProtocolProperties]; rr; destruct x; reflexivity. Qed.
Lemma typed_CryptoProtocolProperties : typed (TRef "CryptoProtocolProperties") reify_CryptoProtocolProperties.
Proof.
  intros x; unfold reify_CryptoProtocolProperties; cbn [wt]; rewrite kind_CryptoProtocolProperties; unfold fields_CryptoProtocolProperties; cbn [zip_all f_ty]; fields_typed;
    match goal with |- wt ?t (?f ?x) => apply (ltac:(auto 8 with reify) : typed t f) end.
Qed.
Lemma vni_CryptoProtocolProperties : vni (TRef "CryptoProtocolProperties") reify_CryptoProtocolProperties reflect_CryptoProtocolProperties.
Proof.
  intros v W.
  apply wt_CryptoProtocolProperties_inv in W as (vs & -> & W). unfold fields_CryptoProtocolProperties in W.
  destruct vs as [|a0 vs]; [destruct W|]. destruct W as [W0 W]. cbn [f_ty] in W0.
  destruct vs as [|a1 vs]; [destruct W|]. destruct W as [W1 W]. cbn [f_ty] in W1.
  destruct vs as [|a2 vs]; [destruct W|]. destruct W as [W2 W]. cbn [f_ty] in W2.
  destruct vs as [|a3 vs]; [destruct W|]. destruct W as [W3 W]. cbn [f_ty] in W3.
  destruct vs as [|a4 vs]; [destruct W|]. destruct W as [W4 W]. cbn [f_ty] in W4.
  destruct vs as [|a5 vs]; [destruct W|]. destruct W as [W5 W]. cbn [f_ty] in W5.
  destruct vs as [|? ?]; [clear W|destruct W].
  cbn [reflect_CryptoProtocolProperties]. unfold reify_CryptoProtocolProperties. cbn [CryptoProtocolProperties_Type CryptoProtocolProperties_Version CryptoProtocolProperties_CipherSuites CryptoProtocolProperties_IKEv2TransformTypes CryptoProtocolProperties_CryptoRefArray CryptoProtocolProperties_RelatedCryptographicAssets]. fields_back.
  - match goal with |- ?f (?g ?v) = _ => match type of W0 with wt ?t _ => exact ((ltac:(auto 8 with reify) : vni t f g) v W0) end end.
  - match goal with |- ?f (?g ?v) = _ => match type of W1 with wt ?t _ => exact ((ltac:(auto 8 with reify) : vni t f g) v W1) end end.
  - match goal with |- ?f (?g ?v) = _ => match type of W2 with wt ?t _ => exact ((ltac:(auto 8 with reify) : vni t f g) v W2) end end.
  - match goal with |- ?f (?g ?v) = _ => match type of W3 with wt ?t _ => exact ((ltac:(auto 8 with reify) : vni t f g) v W3) end end.
  - match goal with |- ?f (?g ?v) = _ => match type of W4 with wt ?t _ => exact ((ltac:(auto 8 with reify) : vni t f g) v W4) end end.
  - match goal with |- ?f (?g ?v) = _ => match type of W5 with wt ?t _ => exact ((ltac:(auto 8 with reify) : vni t f g) v W5) end end.
Qed.
#[export] Hint Resolve inv_CryptoProtocolProperties typed_CryptoProtocolProperties vni_CryptoProtocolProperties : reify.

Lemma kind_CryptoProperties : kind_of (TRef "CryptoProperties") = KStruct fields_CryptoProperties. Proof. reflexivity. Qed.
Lemma wt_CryptoProperties_inv v : wt (TRef "CryptoProperties") v -> exists vs, v = VStruct vs /\ zip_all (fun f x => wt (f_ty f) x) vs fields_CryptoProperties.
Proof.
  intros W. destruct v; cbn [wt] in W; rewrite kind_CryptoProperties in W; try discriminate; try contradiction. eauto.
Qed.
Lemma inv_CryptoProperties : inv reify_CryptoProperties reflect_CryptoProperties.
Proof. intros x; unfold reify_CryptoProperties; cbn [reflect_CryptoProperties]; rr; destruct x; reflexivity. Qed.
Lemma typed_CryptoProperties : typed (TRef "CryptoProperties") reify_CryptoProperties.
Proof.
  intros x; unfold reify_CryptoProperties; cbn [wt]; rewrite kind_CryptoProperties; unfold fields_CryptoProperties; cbn [zip_all f_ty]; fields_typed;
    match goal with |- wt ?t (?f ?x) => apply (ltac:(auto 8 with reify) : typed t f) end.
Qed.
Lemma vni_CryptoProperties : vni (TRef "CryptoProperties") reify_CryptoProperties reflect_CryptoProperties.
Proof.
  intros v W.
  apply wt_CryptoProperties_inv in W as (vs & -> & W). unfold fields_CryptoProperties in W.
  destruct vs as [|a0 vs]; [destruct W|]. destruct W as [W0 W]. cbn [f_ty] in W0.
  destruct vs as [|a1 vs]; [destruct W|]. destruct W as [W1 W]. cbn [f_ty] in W1.
  destruct vs as [|a2 vs]; [destruct W|]. destruct W as [W2 W]. cbn [f_ty] in W2.
  destruct vs as [|a3 vs]; [destruct W|]. destruct W as [W3 W]. cbn [f_ty] in W3.
  destruct vs as [|a4 vs]; [destruct W|]. destruct W as [W4 W]. cbn [f_ty] in W4.
  destruct vs as [|a5 vs]; [destruct W|]. destruct W as [W5 W]. cbn [f_ty] in W5.
  destruct vs as [|? ?]; [clear W|destruct W].
  cbn [reflect_CryptoProperties]. unfold reify_CryptoProperties. cbn [CryptoProperties_AssetType CryptoProperties_AlgorithmProperties CryptoProperties_CertificateProperties CryptoProperties_RelatedCryptoMaterialProperties CryptoProperties_ProtocolProperties CryptoProperties_OID]. fields_back.
  - match goal with |- ?f (?g ?v) = _ => match type of W0 with wt ?t _ => exact ((ltac:(auto 8 with reify) : vni t f g) v W0) end end.
  - match goal with |- ?f (?g ?v) = _ => match type of W1 with wt ?t _ => exact ((ltac:(auto 8 with reify) : vni t f g) v W1) end end.
  - match goal with |- ?f (?g ?v) = _ => match type of W2 with wt ?t _ => exact ((ltac:(auto 8 with reify) : vni t f g) v W2) end end.
  - match goal with |- ?f (?g ?v) = _ => match type of W3 with wt ?t _ => exact ((ltac:(auto 8 with reify) : vni t f g) v W3) end end.
  - match goal with |- ?f (?g ?v) = _ => match type of W4 with wt ?t _ => exact ((ltac:(auto 8 with reify) : vni t f g) v W4) end end.
  - match goal with |- ?f (?g ?v) = _ => match type of W5 with wt ?t _ => exact ((ltac:(auto 8 with reify) : vni t f g) v W5) end end.
Qed.
#[export] Hint Resolve inv_CryptoProperties typed_CryptoProperties vni_CryptoProperties : reify.

Lemma kind_AsserterChoice : kind_of (TRef "AsserterChoice") = KStruct fields_AsserterChoice. Proof. reflexivity. Qed.
Lemma wt_AsserterChoice_inv v : wt (TRef "AsserterChoice") v -> exists vs, v = VStruct vs /\ zip_all (fun f x => wt (f_ty f) x) vs fields_AsserterChoice.
Proof.
  intros W. destruct v; cbn [wt] in W; rewrite kind_AsserterChoice in W; try discriminate; try contradiction. eauto.
Qed.
Lemma inv_AsserterChoice : inv reify_AsserterChoice reflect_AsserterChoice.
Proof. intros x; unfold reify_AsserterChoice; cbn [reflect_AsserterChoice]; rr; destruct x; reflexivity. Qed.
Lemma typed_AsserterChoice : typed (TRef "AsserterChoice") reify_AsserterChoice.
Proof.
  intros x; unfold reify_AsserterChoice; cbn [wt]; rewrite kind_AsserterChoice; unfold fields_AsserterChoice; cbn [zip_all f_ty]; fields_typed;
    match goal with |- wt ?t (?f ?x) => apply (ltac:(auto 8 with reify) : typed t f) end.
Qed.
Lemma vni_AsserterChoice : vni (TRef "AsserterChoice") reify_AsserterChoice reflect_AsserterChoice.
Proof.
  intros v W.
  apply wt_AsserterChoice_inv in W as (vs & -> & W). unfold fields_AsserterChoice in W.
  destruct vs as [|a0 vs]; [destruct W|]. destruct W as [W0 W]. cbn [f_ty] in W0.
  destruct vs as [|a1 vs]; [destruct W|]. destruct W as [W1 W]. cbn [f_ty] in W1.
  destruct vs as [|a2 vs]; [destruct W|]. destruct W as [W2 W]. cbn [f_ty] in W2.
  destruct vs as [|? ?]; [clear W|destruct W].
  cbn [reflect_AsserterChoice]. unfold reify_AsserterChoice. cbn [AsserterChoice_Organization AsserterChoice_Individual AsserterChoice_BOMRef]. fields_back.
  - match goal with |- ?f (?g ?v) = _ => match type of W0 with wt ?t _ => exact ((ltac:(auto 8 with reify) : vni t f g) v W0) end end.
  - match goal with |- ?f (?g ?v) = _ => match type of W1 with wt ?t _ => exact ((ltac:(auto 8 with reify) : vni t f g) v W1) end end.
  - match goal with |- ?f (?g ?v) = _ => match type of W2 with wt ?t _ => exact ((ltac:(auto 8 with reify) : vni t f g) v W2) end end.
Qed.
#[export] Hint Resolve inv_AsserterChoice typed_AsserterChoice vni_AsserterChoice : reify.

Lemma kind_PatentAssertion : kind_of (TRef "PatentAssertion") = KStruct fields_PatentAssertion. Proof. reflexivity. Qed.
Lemma wt_PatentAssertion_inv v : wt (TRef "PatentAssertion") v -> exists vs, v = VStruct vs /\ zip_all (fun f x => wt (f_ty f) x) vs fields_PatentAssertion.
Proof.
  intros W. destruct v; cbn [wt] in W; rewrite kind_PatentAssertion in W; try discriminate; try contradiction. eauto.
Qed.
Lemma inv_PatentAssertion : inv reify_PatentAssertion reflect_PatentAssertion.
Proof. intros x; unfold reify_PatentAssertion; cbn [reflect_PatentAssertion]; rr; destruct x; reflexivity. Qed.
Lemma typed_PatentAssertion : typed (TRef "PatentAssertion") reify_PatentAssertion.
Proof.
  intros x; unfold reify_PatentAssertion; cbn [wt]; rewrite kind_PatentAssertion; unfold fields_PatentAssertion; cbn [zip_all f_ty]; fields_typed;
    match goal with |- wt ?t (?f ?x) => apply (ltac:(auto 8 with reify) : typed t f) end.
Qed.
Lemma vni_PatentAssertion : vni (TRef "PatentAssertion") reify_PatentAssertion reflect_PatentAssertion.
Proof.
  intros v W.
  apply wt_PatentAssertion_inv in W as (vs & -> & W). unfold fields_PatentAssertion in W.
  destruct vs as [|a0 vs]; [destruct W|]. destruct W as [W0 W]. cbn [f_ty] in W0.
  destruct vs as [|a1 vs]; [destruct W|]. destruct W as [W1 W]. cbn [f_ty] in W1.
  destruct vs as [|a2 vs]; [destruct W|]. destruct W as [W2 W]. cbn [f_ty] in W2.
  destruct vs as [|a3 vs]; [destruct W|]. destruct W as [W3 W]. cbn [f_ty] in W3.
  destruct vs as [|a4 vs]; [destruct W|]. destruct W as [W4 W]. cbn [f_ty] in W4.
  destruct vs as [|? ?]; [clear W|destruct W].
  cbn [reflect_PatentAssertion]. unfold reify_PatentAssertion. cbn [PatentAssertion_BOMRef PatentAssertion_PatentRefs PatentAssertion_AssertionType PatentAssertion_Asserter PatentAssertion_Notes]. fields_back.
  - match goal with |- ?f (?g ?v) = _ => match type of W0 with wt ?t _ => exact ((ltac:(auto 8 with reify) : vni t f g) v W0) end end.
  - match goal with |- ?f (?g ?v) = _ => match type of W1 with wt ?t _ => exact ((ltac:(auto 8 with reify) : vni t f g) v W1) end end.
  - match goal with |- ?f (?g ?v) = _ => match type of W2 with wt ?t _ => exact ((ltac:(auto 8 with reify) : vni t f g) v W2) end end.
  - match goal with |- ?f (?g ?v) = _ => match type of W3 with wt ?t _ => exact ((ltac:(auto 8 with reify) : vni t f g) v W3) end end.
  - match goal with |- ?f (?g ?v) = _ => match type of W4 with wt ?t _ => exact ((ltac:(auto 8 with reify) : vni t f g) v W4) end end.
Qed.
#[export] Hint Resolve inv_PatentAssertion typed_PatentAssertion vni_PatentAssertion : reify.

Lemma kind_JSFPublicKey : kind_of (TRef "JSFPublicKey") = KStruct fields_JSFPublicKey. Proof. reflexivity. Qed.
Lemma wt_JSFPublicKey_inv v : wt (TRef "JSFPublicKey") v -> exists vs, v = VStruct vs /\ zip_all (fun f x => wt (f_ty f) x) vs fields_JSFPublicKey.
Proof.
  intros W. destruct v; cbn [wt] in W; rewrite kind_JSFPublicKey in W; try discriminate; try contradiction. eauto.
Qed.
Lemma inv_JSFPublicKey : inv reify_JSFPublicKey reflect_JSFPublicKey.
Proof. intros x; unfold reify_JSFPublicKey; cbn [reflect_JSFPublicKey]; rr; destruct x; reflexivity. Qed.
Lemma typed_JSFPublicKey : typed (TRef "JSFPublicKey") reify_JSFPublicKey.
Proof.
  intros x; unfold reify_JSFPublicKey; cbn [wt]; rewrite kind_JSFPublicKey; unfold fields_JSFPublicKey; cbn [zip_all f_ty]; fields_typed;
    match goal with |- wt ?t (?f ?x) => apply (ltac:(auto 8 with reify) : typed t f) end.
Qed.
Lemma vni_JSFPublicKey : vni (TRef "JSFPublicKey") reify_JSFPublicKey reflect_JSFPublicKey.
Proof.
  intros v W.
  apply wt_JSFPublicKey_inv in W as (vs & -> & W). unfold fields_JSFPublicKey in W.
  destruct vs as [|a0 vs]; [destruct W|]. destruct W as [W0 W]. cbn [f_ty] in W0.
  destruct vs as [|a1 vs]; [destruct W|]. destruct W as [W1 W]. cbn [f_ty] in W1.
  destruct vs as [|a2 vs]; [destruct W|]. destruct W as [W2 W]. cbn [f_ty] in W2.
  destruct vs as [|a3 vs]; [destruct W|]. destruct W as [W3 W]. cbn [f_ty] in W3.
  destruct vs as [|a4 vs]; [destruct W|]. destruct W as [W4 W]. cbn [f_ty] in W4.
  destruct vs as [|a5 vs]; [destruct W|]. destruct W as [W5 W]. cbn [f_ty] in W5.
  destruct vs as [|? ?]; [clear W|destruct W].
  cbn [reflect_JSFPublicKey]. unfold reify_JSFPublicKey. cbn [JSFPublicKey_KTY JSFPublicKey_CRV JSFPublicKey_X JSFPublicKey_Y JSFPublicKey_N JSFPublicKey_E]. fields_back.
  - match goal with |- ?f (?g ?v) = _ => match type of W0 with wt ?t _ => exact ((ltac:(auto 8 with reify) : vni t f g) v W0) end end.
  - match goal with |- ?f (?g ?v) = _ => match type of W1 with wt ?t _ => exact ((ltac:(auto 8 with reify) : vni t f g) v W1) end end.
  - match goal with |- ?f (?g ?v) = _ => match type of W2 with wt ?t _ => exact ((ltac:(auto 8 with reify) : vni t f g) v W2) end end.
  - match goal with |- ?f (?g ?v) = _ => match type of W3 with wt ?t _ => exact ((ltac:(auto 8 with reify) : vni t f g) v W3) end end.
  - match goal with |- ?f (?g ?v) = _ => match type of W4 with wt ?t _ => exact ((ltac:(auto 8 with reify) : vni t f g) v W4) end end.
  - match goal with |- ?f (?g ?v) = _ => match type of W5 with wt ?t _ => exact ((ltac:(auto 8 with reify) : vni t f g) v W5) end end.
Qed.
#[export] Hint Resolve inv_JSFPublicKey typed_JSFPublicKey vni_JSFPublicKey : reify.

Lemma kind_JSFSigner : kind_of (TRef "JSFSigner") = KStruct fields_JSFSigner. Proof. reflexivity. Qed.
Lemma wt_JSFSigner_inv v : wt (TRef "JSFSigner") v -> exists vs, v = VStruct vs /\ zip_all (fun f x => wt (f_ty f) x) vs fields_JSFSigner.
Proof.
  intros W. destruct v; cbn [wt] in W; rewrite kind_JSFSigner in W; try discriminate; try contradiction. eauto.
Qed.
Lemma inv_JSFSigner : inv reify_JSFSigner reflect_JSFSigner.
Proof. intros x; unfold reify_JSFSigner; cbn [reflect_JSFSigner]; rr; destruct x; reflexivity. Qed.
Lemma typed_JSFSigner : typed (TRef "JSFSigner") reify_JSFSigner.
Proof.
  intros x; unfold reify_JSFSigner; cbn [wt]; rewrite kind_JSFSigner; unfold fields_JSFSigner; cbn [zip_all f_ty]; fields_typed;
    match goal with |- wt ?t (?f ?x) => apply (ltac:(auto 8 with reify) : typed t f) end.
Qed.
Lemma vni_JSFSigner : vni (TRef "JSFSigner") reify_JSFSigner reflect_JSFSigner.
Proof.
  intros v W.
  apply wt_JSFSigner_inv in W as (vs & -> & W). unfold fields_JSFSigner in W.
  destruct vs as [|a0 vs]; [destruct W|]. destruct W as [W0 W]. cbn [f_ty] in W0.
  destruct vs as [|a1 vs]; [destruct W|]. destruct W as [W1 W]. cbn [f_ty] in W1.
  destruct vs as [|a2 vs]; [destruct W|]. destruct W as [W2 W]. cbn [f_ty] in W2.
  destruct vs as [|a3 vs]; [destruct W|]. destruct W as [W3 W]. cbn [f_ty] in W3.
  destruct vs as [|a4 vs]; [destruct W|]. destruct W as [W4 W]. cbn [f_ty] in W4.
  destruct vs as [|a5 vs]; [destruct W|]. destruct W as [W5 W]. cbn [f_ty] in W5.
  destruct vs as [|? ?]; [clear W|destruct W].
  cbn [reflect_JSFSigner]. unfold reify_JSFSigner. cbn [JSFSigner_Algorithm JSFSigner_KeyID JSFSigner_PublicKey JSFSigner_CertificatePath JSFSigner_Excludes JSFSigner_Value]. fields_back.
  - match goal with |- ?f (?g ?v) = _ => match type of W0 with wt ?t _ => exact ((ltac:(auto 8 with reify) : vni t f g) v W0) end end.
  - match goal with |- ?f (?g ?v) = _ => match type of W1 with wt ?t _ => exact ((ltac:(auto 8 with reify) : vni t f g) v W1) end end.
  - match goal with |- ?f (?g ?v) = _ => match type of W2 with wt ?t _ => exact ((ltac:(auto 8 with reify) : vni t f g) v W2) end end.
  - match goal with |- ?f (?g ?v) = _ => match type of W3 with wt ?t _ => exact ((ltac:(auto 8 with reify) : vni t f g) v W3) end end.
  - match goal with |- ?f (?g ?v) = _ => match type of W4 with wt ?t _ => exact ((ltac:(auto 8 with reify) : vni t f g) v W4) end end.
  - match goal with |- ?f (?g ?v) = _ => match type of W5 with wt ?t _ => exact ((ltac:(auto 8 with reify) : vni t f g) v W5) end end.
Qed.
#[export] Hint Resolve inv_JSFSigner typed_JSFSigner vni_JSFSigner : reify.

Lemma kind_JSFSignature : kind_of (TRef "JSFSignature") = KStruct fields_JSFSignature. Proof. reflexivity. Qed.
Lemma wt_JSFSignature_inv v : wt (TRef "JSFSignature") v -> exists vs, v = VStruct vs /\ zip_all (fun f x => wt (f_ty f) x) vs fields_JSFSignature.
Proof.
  intros W. destruct v; cbn [wt] in W; rewrite kind_JSFSignature in W; try discriminate; try contradiction. eauto.
Qed.
Lemma inv_JSFSignature : inv reify_JSFSignature reflect_JSFSignature.
Proof. intros x; unfold reify_JSFSignature; cbn [reflect_JSFSignature]; rr; destruct x; reflexivity. Qed.
Lemma typed_JSFSignature : typed (TRef "JSFSignature") reify_JSFSignature.
Proof.
  intros x; unfold reify_JSFSignature; cbn [wt]; rewrite kind_JSFSignature; unfold fields_JSFSignature; cbn [zip_all f_ty]; fields_typed;
    match goal with |- wt ?t (?f ?x) => apply (ltac:(auto 8 with reify) : typed t f) end.
Qed.
Lemma vni_JSFSignature : vni (TRef "JSFSignature") reify_JSFSignature reflect_JSFSignature.
Proof.
  intros v W.
  apply wt_JSFSignature_inv in W as (vs & -> & W). unfold fields_JSFSignature in W.
  destruct vs as [|a0 vs]; [destruct W|]. destruct W as [W0 W]. cbn [f_ty] in W0.
  destruct vs as [|a1 vs]; [destruct W|]. destruct W as [W1 W]. cbn [f_ty] in W1.
  destruct vs as [|a2 vs]; [destruct W|]. destruct W as [W2 W]. cbn [f_ty] in W2.
  destruct vs as [|? ?]; [clear W|destruct W].
  cbn [reflect_JSFSignature]. unfold reify_JSFSignature. cbn [JSFSignature_JSFSigner JSFSignature_Signers JSFSignature_Chain]. fields_back.
  - match goal with |- ?f (?g ?v) = _ => match type of W0 with wt ?t _ => exact ((ltac:(auto 8 with reify) : vni t f g) v W0) end end.
  - match goal with |- ?f (?g ?v) = _ => match type of W1 with wt ?t _ => exact ((ltac:(auto 8 with reify) : vni t f g) v W1) end end.
  - match goal with |- ?f (?g ?v) = _ => match type of W2 with wt ?t _ => exact ((ltac:(auto 8 with reify) : vni t f g) v W2) end end.
Qed.
#[export] Hint Resolve inv_JSFSignature typed_JSFSignature vni_JSFSignature : reify.

Lemma kind_Component : kind_of (TRef "Component") = KStruct fields_Component. Proof. reflexivity. Qed.
Lemma wt_Component_inv v : wt (TRef "Component") v -> exists vs, v = VStruct vs /\ zip_all (fun f x => wt (f_ty f) x) vs fields_Component.
Proof.
  intros W. destruct v; cbn [wt] in W; rewrite kind_Component in W; try discriminate; try contradiction. eauto.
Qed.
Lemma reify_Component_fix x : reify_Component x =
  VStruct [ VStr (Component_BOMRef x);
            VStr (Component_MIMEType x);
            VStr (Component_Type x);
            vptr (reify_OrganizationalEntity) (Component_Supplier x);
            vptr (reify_OrganizationalEntity) (Component_Manufacturer x);
            VStr (Component_Author x);
            vptr (vslice (reify_OrganizationalContact)) (Component_Authors x);
            VStr (Component_Publisher x);
            VStr (Component_Group x);
            VStr (Component_Name x);
            VStr (Component_Version x);
            VStr (Component_Description x);
            VStr (Component_Scope x);
            vptr (vslice (reify_Hash)) (Component_Hashes x);
            vptr (vslice (reify_LicenseChoice)) (Component_Licenses x);
            VStr (Component_Copyright x);
            VStr (Component_CPE x);
            VStr (Component_PackageURL x);
            vptr (vslice (VStr)) (Component_OmniborID x);
            vptr (vslice (VStr)) (Component_SWHID x);
            vptr (reify_SWID) (Component_SWID x);
            vptr (VBool) (Component_Modified x);
            vptr (reify_Pedigree_ reify_Component) (Component_Pedigree x);
            vptr (vslice (reify_ExternalReference)) (Component_ExternalReferences x);
            vptr (vslice (reify_Property)) (Component_Properties x);
            vptr (vslice (reify_Component)) (Component_Components x);
            vptr (reify_Evidence) (Component_Evidence x);
            vptr (reify_ReleaseNotes) (Component_ReleaseNotes x);
            vptr (reify_MLModelCard) (Component_ModelCard x);
            vptr (vslice (reify_ComponentData)) (Component_Data x);
            vptr (reify_CryptoProperties) (Component_CryptoProperties x);
            vptr (vslice (VStr)) (Component_Tags x);
            vptr (VBool) (Component_IsExternal x);
            vptr (vslice (reify_PatentAssertion)) (Component_PatentAssertions x);
            VStr (Component_VersionRange x);
            vptr (reify_JSFSignature) (Component_Signature x) ].
Proof. destruct x; reflexivity. Qed.
Lemma inv_Component : inv reify_Component reflect_Component.
Proof.
  intros x. induction x as [x IH] using component_induction.
  rewrite reify_Component_fix. cbn [reflect_Component].
  unfold child_component in IH.
  rewrite (inv_ptr_slice_in reify_Component reflect_Component) by (intros y Hy; apply IH; left; exact Hy).
  match goal with |- context [ptr_of (reflect_Pedigree_ reflect_Component) (vptr (reify_Pedigree_ reify_Component) ?p)] =>
    assert (EP : ptr_of (reflect_Pedigree_ reflect_Component) (vptr (reify_Pedigree_ reify_Component) p) = p) end.
  { match goal with |- ptr_of _ (vptr _ ?p) = _ => destruct p as [p0|] eqn:EPP end; [|reflexivity]. unfold vptr, ptr_of. cbn [option_map]. f_equal.
    apply inv_Pedigree_in. intros l Hl. apply inv_ptr_slice_in. intros y Hy. apply IH. right. exists p0. split; [reflexivity|].
    cbn [In] in Hl. unfold members. destruct Hl as [<-|[<-|[<-|[]]]]; auto. }
  rewrite EP. clear EP.
  rr. destruct x; reflexivity.
Qed.
Lemma typed_Component : typed (TRef "Component") reify_Component.
Proof.
  intros x. induction x as [x IH] using component_induction.
  rewrite reify_Component_fix. cbn [wt]. rewrite kind_Component. unfold fields_Component. cbn [zip_all f_ty].
  unfold child_component in IH.
  fields_typed.
  - match goal with |- wt ?t (?f ?x) => apply (ltac:(auto 8 with reify) : typed t f) end.
  - match goal with |- wt ?t (?f ?x) => apply (ltac:(auto 8 with reify) : typed t f) end.
  - match goal with |- wt ?t (?f ?x) => apply (ltac:(auto 8 with reify) : typed t f) end.
  - match goal with |- wt ?t (?f ?x) => apply (ltac:(auto 8 with reify) : typed t f) end.
  - match goal with |- wt ?t (?f ?x) => apply (ltac:(auto 8 with reify) : typed t f) end.
  - match goal with |- wt ?t (?f ?x) => apply (ltac:(auto 8 with reify) : typed t f) end.
  - match goal with |- wt ?t (?f ?x) => apply (ltac:(auto 8 with reify) : typed t f) end.
  - match goal with |- wt ?t (?f ?x) => apply (ltac:(auto 8 with reify) : typed t f) end.
  - match goal with |- wt ?t (?f ?x) => apply (ltac:(auto 8 with reify) : typed t f) end.
  - match goal with |- wt ?t (?f ?x) => apply (ltac:(auto 8 with reify) : typed t f) end.
  - match goal with |- wt ?t (?f ?x) => apply (ltac:(auto 8 with reify) : typed t f) end.
  - match goal with |- wt ?t (?f ?x) => apply (ltac:(auto 8 with reify) : typed t f) end.
  - match goal with |- wt ?t (?f ?x) => apply (ltac:(auto 8 with reify) : typed t f) end.
  - match goal with |- wt ?t (?f ?x) => apply (ltac:(auto 8 with reify) : typed t f) end.
  - match goal with |- wt ?t (?f ?x) => apply (ltac:(auto 8 with reify) : typed t f) end.
  - match goal with |- wt ?t (?f ?x) => apply (ltac:(auto 8 with reify) : typed t f) end.
  - match goal with |- wt ?t (?f ?x) => apply (ltac:(auto 8 with reify) : typed t f) end.
  - match goal with |- wt ?t (?f ?x) => apply (ltac:(auto 8 with reify) : typed t f) end.
  - match goal with |- wt ?t (?f ?x) => apply (ltac:(auto 8 with reify) : typed t f) end.
  - match goal with |- wt ?t (?f ?x) => apply (ltac:(auto 8 with reify) : typed t f) end.
  - match goal with |- wt ?t (?f ?x) => apply (ltac:(auto 8 with reify) : typed t f) end.
  - match goal with |- wt ?t (?f ?x) => apply (ltac:(auto 8 with reify) : typed t f) end.
  - match goal with |- wt _ (vptr _ ?p) => destruct p as [p0|] eqn:EPP end; [|exact I]. apply typed_Pedigree_in. intros l Hl. apply typed_slice_in.
    intros y Hy. apply IH. right. exists p0. split; [reflexivity|]. cbn [In] in Hl. unfold members. destruct Hl as [<-|[<-|[<-|[]]]]; auto.
  - match goal with |- wt ?t (?f ?x) => apply (ltac:(auto 8 with reify) : typed t f) end.
  - match goal with |- wt ?t (?f ?x) => apply (ltac:(auto 8 with reify) : typed t f) end.
  - apply typed_slice_in. intros y Hy. apply IH. left; exact Hy.
  - match goal with |- wt ?t (?f ?x) => apply (ltac:(auto 8 with reify) : typed t f) end.
  - match goal with |- wt ?t (?f ?x) => apply (ltac:(auto 8 with reify) : typed t f) end.
  - match goal with |- wt ?t (?f ?x) => apply (ltac:(auto 8 with reify) : typed t f) end.
  - match goal with |- wt ?t (?f ?x) => apply (ltac:(auto 8 with reify) : typed t f) end.
  - match goal with |- wt ?t (?f ?x) => apply (ltac:(auto 8 with reify) : typed t f) end.
  - match goal with |- wt ?t (?f ?x) => apply (ltac:(auto 8 with reify) : typed t f) end.
  - match goal with |- wt ?t (?f ?x) => apply (ltac:(auto 8 with reify) : typed t f) end.
  - match goal with |- wt ?t (?f ?x) => apply (ltac:(auto 8 with reify) : typed t f) end.
  - match goal with |- wt ?t (?f ?x) => apply (ltac:(auto 8 with reify) : typed t f) end.
  - match goal with |- wt ?t (?f ?x) => apply (ltac:(auto 8 with reify) : typed t f) end.
Qed.
#[export] Hint Resolve inv_Component typed_Component : reify.
Definition vni_at {A} (t : ty) (f : A -> val) (g : val -> A) (v : val) : Prop := wt t v -> f (g v) = v.
Lemma vni_Component_all v :
  vni_at (TRef "Component") reify_Component reflect_Component v /\
  vni_at (TSlice (TRef "Component")) (vslice reify_Component) (slice_of reflect_Component) v /\
  vni_at (TPtr (TSlice (TRef "Component"))) (vptr (vslice reify_Component)) (ptr_of (slice_of reflect_Component)) v /\
  vni_at (TRef "Pedigree") (reify_Pedigree_ reify_Component) (reflect_Pedigree_ reflect_Component) v /\
  vni_at (TPtr (TRef "Pedigree")) (vptr (reify_Pedigree_ reify_Component)) (ptr_of (reflect_Pedigree_ reflect_Component)) v.
Proof.
  induction v as [| | | | |x IH| |l IH|vs IH] using val_induction; unfold vni_at in *;
    (split; [|split; [|split; [|split]]]); intros W;
    try (vm_compute in W; discriminate || contradiction || reflexivity).
  - cbn in W. destruct IH as (_ & IH & _). unfold vptr, ptr_of. cbn [option_map]. rewrite IH by exact W. reflexivity.
  - cbn in W. destruct IH as (_ & _ & _ & IH & _). unfold vptr, ptr_of. cbn [option_map]. rewrite IH by exact W. reflexivity.
  - cbn in W. rewrite list_all_forall in W. unfold vslice, slice_of. cbn [option_map]. do 2 f_equal. rewrite map_map.
    rewrite <- (map_id l) at 2. apply map_ext_in. intros x Hx. rewrite Forall_forall in IH, W. apply (proj1 (IH x Hx)), W, Hx.
  - 
    apply wt_Component_inv in W as (vs' & E & W). injection E as <-. unfold fields_Component in W.
    destruct vs as [|a0 vs]; [destruct W|]. destruct W as [W0 W]. cbn [f_ty] in W0.
    destruct vs as [|a1 vs]; [destruct W|]. destruct W as [W1 W]. cbn [f_ty] in W1.
    destruct vs as [|a2 vs]; [destruct W|]. destruct W as [W2 W]. cbn [f_ty] in W2.
    destruct vs as [|a3 vs]; [destruct W|]. destruct W as [W3 W]. cbn [f_ty] in W3.
    destruct vs as [|a4 vs]; [destruct W|]. destruct W as [W4 W]. cbn [f_ty] in W4.
    destruct vs as [|a5 vs]; [destruct W|]. destruct W as [W5 W]. cbn [f_ty] in W5.
    destruct vs as [|a6 vs]; [destruct W|]. destruct W as [W6 W]. cbn [f_ty] in W6.
    destruct vs as [|a7 vs]; [destruct W|]. destruct W as [W7 W]. cbn [f_ty] in W7.
    destruct vs as [|a8 vs]; [destruct W|]. destruct W as [W8 W]. cbn [f_ty] in W8.
    destruct vs as [|a9 vs]; [destruct W|]. destruct W as [W9 W]. cbn [f_ty] in W9.
    destruct vs as [|a10 vs]; [destruct W|]. destruct W as [W10 W]. cbn [f_ty] in W10.
    destruct vs as [|a11 vs]; [destruct W|]. destruct W as [W11 W]. cbn [f_ty] in W11.
    destruct vs as [|a12 vs]; [destruct W|]. destruct W as [W12 W]. cbn [f_ty] in W12.
    destruct vs as [|a13 vs]; [destruct W|]. destruct W as [W13 W]. cbn [f_ty] in W13.
    destruct vs as [|a14 vs]; [destruct W|]. destruct W as [W14 W]. cbn [f_ty] in W14.
    destruct vs as [|a15 vs]; [destruct W|]. destruct W as [W15 W]. cbn [f_ty] in W15.
    destruct vs as [|a16 vs]; [destruct W|]. destruct W as [W16 W]. cbn [f_ty] in W16.
    destruct vs as [|a17 vs]; [destruct W|]. destruct W as [W17 W]. cbn [f_ty] in W17.
    destruct vs as [|a18 vs]; [destruct W|]. destruct W as [W18 W]. cbn [f_ty] in W18.
    destruct vs as [|a19 vs]; [destruct W|]. destruct W as [W19 W]. cbn [f_ty] in W19.
    destruct vs as [|a20 vs]; [destruct W|]. destruct W as [W20 W]. cbn [f_ty] in W20.
    destruct vs as [|a21 vs]; [destruct W|]. destruct W as [W21 W]. cbn [f_ty] in W21.
    destruct vs as [|a22 vs]; [destruct W|]. destruct W as [W22 W]. cbn [f_ty] in W22.
    destruct vs as [|a23 vs]; [destruct W|]. destruct W as [W23 W]. cbn [f_ty] in W23.
    destruct vs as [|a24 vs]; [destruct W|]. destruct W as [W24 W]. cbn [f_ty] in W24.
    destruct vs as [|a25 vs]; [destruct W|]. destruct W as [W25 W]. cbn [f_ty] in W25.
    destruct vs as [|a26 vs]; [destruct W|]. destruct W as [W26 W]. cbn [f_ty] in W26.
    destruct vs as [|a27 vs]; [destruct W|]. destruct W as [W27 W]. cbn [f_ty] in W27.
    destruct vs as [|a28 vs]; [destruct W|]. destruct W as [W28 W]. cbn [f_ty] in W28.
    destruct vs as [|a29 vs]; [destruct W|]. destruct W as [W29 W]. cbn [f_ty] in W29.
    destruct vs as [|a30 vs]; [destruct W|]. destruct W as [W30 W]. cbn [f_ty] in W30.
    destruct vs as [|a31 vs]; [destruct W|]. destruct W as [W31 W]. cbn [f_ty] in W31.
    destruct vs as [|a32 vs]; [destruct W|]. destruct W as [W32 W]. cbn [f_ty] in W32.
    destruct vs as [|a33 vs]; [destruct W|]. destruct W as [W33 W]. cbn [f_ty] in W33.
    destruct vs as [|a34 vs]; [destruct W|]. destruct W as [W34 W]. cbn [f_ty] in W34.
    destruct vs as [|a35 vs]; [destruct W|]. destruct W as [W35 W]. cbn [f_ty] in W35.
    destruct vs as [|? ?]; [clear W|destruct W].
    cbn [reflect_Component]. rewrite reify_Component_fix. cbn [Component_BOMRef Component_MIMEType Component_Type Component_Supplier Component_Manufacturer Component_Author Component_Authors Component_Publisher Component_Group Component_Name Component_Version Component_Description Component_Scope Component_Hashes Component_Licenses Component_Copyright Component_CPE Component_PackageURL Component_OmniborID Component_SWHID Component_SWID Component_Modified Component_Pedigree Component_ExternalReferences Component_Properties Component_Components Component_Evidence Component_ReleaseNotes Component_ModelCard Component_Data Component_CryptoProperties Component_Tags Component_IsExternal Component_PatentAssertions Component_VersionRange Component_Signature]. rewrite Forall_forall in IH. fields_back.
    + match goal with |- ?f (?g ?v) = _ => match type of W0 with wt ?t _ => exact ((ltac:(auto 8 with reify) : vni t f g) v W0) end end.
    + match goal with |- ?f (?g ?v) = _ => match type of W1 with wt ?t _ => exact ((ltac:(auto 8 with reify) : vni t f g) v W1) end end.
    + match goal with |- ?f (?g ?v) = _ => match type of W2 with wt ?t _ => exact ((ltac:(auto 8 with reify) : vni t f g) v W2) end end.
    + match goal with |- ?f (?g ?v) = _ => match type of W3 with wt ?t _ => exact ((ltac:(auto 8 with reify) : vni t f g) v W3) end end.
    + match goal with |- ?f (?g ?v) = _ => match type of W4 with wt ?t _ => exact ((ltac:(auto 8 with reify) : vni t f g) v W4) end end.
    + match goal with |- ?f (?g ?v) = _ => match type of W5 with wt ?t _ => exact ((ltac:(auto 8 with reify) : vni t f g) v W5) end end.
    + match goal with |- ?f (?g ?v) = _ => match type of W6 with wt ?t _ => exact ((ltac:(auto 8 with reify) : vni t f g) v W6) end end.
    + match goal with |- ?f (?g ?v) = _ => match type of W7 with wt ?t _ => exact ((ltac:(auto 8 with reify) : vni t f g) v W7) end end.
    + match goal with |- ?f (?g ?v) = _ => match type of W8 with wt ?t _ => exact ((ltac:(auto 8 with reify) : vni t f g) v W8) end end.
    + match goal with |- ?f (?g ?v) = _ => match type of W9 with wt ?t _ => exact ((ltac:(auto 8 with reify) : vni t f g) v W9) end end.
    + match goal with |- ?f (?g ?v) = _ => match type of W10 with wt ?t _ => exact ((ltac:(auto 8 with reify) : vni t f g) v W10) end end.
    + match goal with |- ?f (?g ?v) = _ => match type of W11 with wt ?t _ => exact ((ltac:(auto 8 with reify) : vni t f g) v W11) end end.
    + match goal with |- ?f (?g ?v) = _ => match type of W12 with wt ?t _ => exact ((ltac:(auto 8 with reify) : vni t f g) v W12) end end.
    + match goal with |- ?f (?g ?v) = _ => match type of W13 with wt ?t _ => exact ((ltac:(auto 8 with reify) : vni t f g) v W13) end end.
    + match goal with |- ?f (?g ?v) = _ => match type of W14 with wt ?t _ => exact ((ltac:(auto 8 with reify) : vni t f g) v W14) end end.
    + match goal with |- ?f (?g ?v) = _ => match type of W15 with wt ?t _ => exact ((ltac:(auto 8 with reify) : vni t f g) v W15) end end.
    + match goal with |- ?f (?g ?v) = _ => match type of W16 with wt ?t _ => exact ((ltac:(auto 8 with reify) : vni t f g) v W16) end end.
    + match goal with |- ?f (?g ?v) = _ => match type of W17 with wt ?t _ => exact ((ltac:(auto 8 with reify) : vni t f g) v W17) end end.
    + match goal with |- ?f (?g ?v) = _ => match type of W18 with wt ?t _ => exact ((ltac:(auto 8 with reify) : vni t f g) v W18) end end.
    + match goal with |- ?f (?g ?v) = _ => match type of W19 with wt ?t _ => exact ((ltac:(auto 8 with reify) : vni t f g) v W19) end end.
    + match goal with |- ?f (?g ?v) = _ => match type of W20 with wt ?t _ => exact ((ltac:(auto 8 with reify) : vni t f g) v W20) end end.
    + match goal with |- ?f (?g ?v) = _ => match type of W21 with wt ?t _ => exact ((ltac:(auto 8 with reify) : vni t f g) v W21) end end.
    + apply (IH a22); [cbn [In]; auto 40|exact W22].
    + match goal with |- ?f (?g ?v) = _ => match type of W23 with wt ?t _ => exact ((ltac:(auto 8 with reify) : vni t f g) v W23) end end.
    + match goal with |- ?f (?g ?v) = _ => match type of W24 with wt ?t _ => exact ((ltac:(auto 8 with reify) : vni t f g) v W24) end end.
    + apply (IH a25); [cbn [In]; auto 40|exact W25].
    + match goal with |- ?f (?g ?v) = _ => match type of W26 with wt ?t _ => exact ((ltac:(auto 8 with reify) : vni t f g) v W26) end end.
    + match goal with |- ?f (?g ?v) = _ => match type of W27 with wt ?t _ => exact ((ltac:(auto 8 with reify) : vni t f g) v W27) end end.
    + match goal with |- ?f (?g ?v) = _ => match type of W28 with wt ?t _ => exact ((ltac:(auto 8 with reify) : vni t f g) v W28) end end.
    + match goal with |- ?f (?g ?v) = _ => match type of W29 with wt ?t _ => exact ((ltac:(auto 8 with reify) : vni t f g) v W29) end end.
    + match goal with |- ?f (?g ?v) = _ => match type of W30 with wt ?t _ => exact ((ltac:(auto 8 with reify) : vni t f g) v W30) end end.
    + match goal with |- ?f (?g ?v) = _ => match type of W31 with wt ?t _ => exact ((ltac:(auto 8 with reify) : vni t f g) v W31) end end.
    + match goal with |- ?f (?g ?v) = _ => match type of W32 with wt ?t _ => exact ((ltac:(auto 8 with reify) : vni t f g) v W32) end end.
    + match goal with |- ?f (?g ?v) = _ => match type of W33 with wt ?t _ => exact ((ltac:(auto 8 with reify) : vni t f g) v W33) end end.
    + match goal with |- ?f (?g ?v) = _ => match type of W34 with wt ?t _ => exact ((ltac:(auto 8 with reify) : vni t f g) v W34) end end.
    + match goal with |- ?f (?g ?v) = _ => match type of W35 with wt ?t _ => exact ((ltac:(auto 8 with reify) : vni t f g) v W35) end end.
  - apply vni_Pedigree_in; [|exact W]. rewrite Forall_forall in *. intros x Hx. apply IH, Hx.
Qed.
Lemma vni_Component : vni (TRef "Component") reify_Component reflect_Component.
Proof. intros v. apply vni_Component_all. Qed.
Lemma inv_Pedigree : inv reify_Pedigree reflect_Pedigree.
Proof. intros x. apply inv_Pedigree_in. intros l _. apply (inv_ptr _ _ (inv_slice _ _ inv_Component)). Qed.
Lemma typed_Pedigree : typed (TRef "Pedigree") reify_Pedigree.
Proof. intros x. apply typed_Pedigree_in. intros l _. apply (typed_ptr _ _ (typed_slice _ _ typed_Component)). Qed.
#[export] Hint Resolve vni_Component inv_Pedigree typed_Pedigree : reify.


Lemma kind_DataClassification : kind_of (TRef "DataClassification") = KStruct fields_DataClassification. Proof. reflexivity. Qed.
Lemma wt_DataClassification_inv v : wt (TRef "DataClassification") v -> exists vs, v = VStruct vs /\ zip_all (fun f x => wt (f_ty f) x) vs fields_DataClassification.
Proof.
  intros W. destruct v; cbn [wt] in W; rewrite kind_DataClassification in W; try discriminate; try contradiction. eauto.
Qed.
Lemma inv_DataClassification : inv reify_DataClassification reflect_DataClassification.
Proof. intros x; unfold reify_DataClassification; cbn [reflect_DataClassification]; rr; destruct x; reflexivity. Qed.
Lemma typed_DataClassification : typed (TRef "DataClassification") reify_DataClassification.
Proof.
  intros x; unfold reify_DataClassification; cbn [wt]; rewrite kind_DataClassification; unfold fields_DataClassification; cbn [zip_all f_ty]; fields_typed;
    match goal with |- wt ?t (?f ?x) => apply (ltac:(auto 8 with reify) : typed t f) end.
Qed.
Lemma vni_DataClassification : vni (TRef "DataClassification") reify_DataClassification reflect_DataClassification.
Proof.
  intros v W.
  apply wt_DataClassification_inv in W as (vs & -> & W). unfold fields_DataClassification in W.
  destruct vs as [|a0 vs]; [destruct W|]. destruct W as [W0 W]. cbn [f_ty] in W0.
  destruct vs as [|a1 vs]; [destruct W|]. destruct W as [W1 W]. cbn [f_ty] in W1.
  destruct vs as [|a2 vs]; [destruct W|]. destruct W as [W2 W]. cbn [f_ty] in W2.
  destruct vs as [|a3 vs]; [destruct W|]. destruct W as [W3 W]. cbn [f_ty] in W3.
  destruct vs as [|a4 vs]; [destruct W|]. destruct W as [W4 W]. cbn [f_ty] in W4.
  destruct vs as [|a5 vs]; [destruct W|]. destruct W as [W5 W]. cbn [f_ty] in W5.
  destruct vs as [|a6 vs]; [destruct W|]. destruct W as [W6 W]. cbn [f_ty] in W6.
  destruct vs as [|? ?]; [clear W|destruct W].
  cbn [reflect_DataClassification]. unfold reify_DataClassification. cbn [DataClassification_Flow DataClassification_Classification DataClassification_Name DataClassification_Description DataClassification_Governance DataClassification_Source DataClassification_Destination]. fields_back.
  - match goal with |- ?f (?g ?v) = _ => match type of W0 with wt ?t _ => exact ((ltac:(auto 8 with reify) : vni t f g) v W0) end end.
  - match goal with |- ?f (?g ?v) = _ => match type of W1 with wt ?t _ => exact ((ltac:(auto 8 with reify) : vni t f g) v W1) end end.
  - match goal with |- ?f (?g ?v) = _ => match type of W2 with wt ?t _ => exact ((ltac:(auto 8 with reify) : vni t f g) v W2) end end.
  - match goal with |- ?f (?g ?v) = _ => match type of W3 with wt ?t _ => exact ((ltac:(auto 8 with reify) : vni t f g) v W3) end end.
  - match goal with |- ?f (?g ?v) = _ => match type of W4 with wt ?t _ => exact ((ltac:(auto 8 with reify) : vni t f g) v W4) end end.
  - match goal with |- ?f (?g ?v) = _ => match type of W5 with wt ?t _ => exact ((ltac:(auto 8 with reify) : vni t f g) v W5) end end.
  - match goal with |- ?f (?g ?v) = _ => match type of W6 with wt ?t _ => exact ((ltac:(auto 8 with reify) : vni t f g) v W6) end end.
Qed.
#[export] Hint Resolve inv_DataClassification typed_DataClassification vni_DataClassification : reify.

Lemma kind_Service : kind_of (TRef "Service") = KStruct fields_Service. Proof. reflexivity. Qed.
Lemma wt_Service_inv v : wt (TRef "Service") v -> exists vs, v = VStruct vs /\ zip_all (fun f x => wt (f_ty f) x) vs fields_Service.
Proof.
  intros W. destruct v; cbn [wt] in W; rewrite kind_Service in W; try discriminate; try contradiction. eauto.
Qed.
Lemma reify_Service_fix x : reify_Service x =
  VStruct [ VStr (Service_BOMRef x);
            vptr (reify_OrganizationalEntity) (Service_Provider x);
            VStr (Service_Group x);
            VStr (Service_Name x);
            VStr (Service_Version x);
            VStr (Service_Description x);
            vptr (vslice (VStr)) (Service_Endpoints x);
            vptr (VBool) (Service_Authenticated x);
            vptr (VBool) (Service_CrossesTrustBoundary x);
            vptr (vslice (reify_DataClassification)) (Service_Data x);
            vptr (vslice (reify_LicenseChoice)) (Service_Licenses x);
            vptr (vslice (reify_ExternalReference)) (Service_ExternalReferences x);
            vptr (vslice (reify_Property)) (Service_Properties x);
            vptr (vslice (reify_Service)) (Service_Services x);
            vptr (reify_ReleaseNotes) (Service_ReleaseNotes x);
            vptr (vslice (VStr)) (Service_Tags x);
            VStr (Service_TrustZone x);
            vptr (vslice (reify_PatentAssertion)) (Service_PatentAssertions x);
            vptr (reify_JSFSignature) (Service_Signature x) ].
Proof. destruct x; reflexivity. Qed.
Lemma inv_Service : inv reify_Service reflect_Service.
Proof.
  intros x. induction x as [x IH] using service_induction.
  rewrite reify_Service_fix. cbn [reflect_Service].
  unfold child_service in IH.
  rewrite (inv_ptr_slice_in reify_Service reflect_Service) by exact IH.
  rr. destruct x; reflexivity.
Qed.
Lemma typed_Service : typed (TRef "Service") reify_Service.
Proof.
  intros x. induction x as [x IH] using service_induction.
  rewrite reify_Service_fix. cbn [wt]. rewrite kind_Service. unfold fields_Service. cbn [zip_all f_ty].
  unfold child_service in IH.
  fields_typed.
  - match goal with |- wt ?t (?f ?x) => apply (ltac:(auto 8 with reify) : typed t f) end.
  - match goal with |- wt ?t (?f ?x) => apply (ltac:(auto 8 with reify) : typed t f) end.
  - match goal with |- wt ?t (?f ?x) => apply (ltac:(auto 8 with reify) : typed t f) end.
  - match goal with |- wt ?t (?f ?x) => apply (ltac:(auto 8 with reify) : typed t f) end.
  - match goal with |- wt ?t (?f ?x) => apply (ltac:(auto 8 with reify) : typed t f) end.
  - match goal with |- wt ?t (?f ?x) => apply (ltac:(auto 8 with reify) : typed t f) end.
  - match goal with |- wt ?t (?f ?x) => apply (ltac:(auto 8 with reify) : typed t f) end.
  - match goal with |- wt ?t (?f ?x) => apply (ltac:(auto 8 with reify) : typed t f) end.
  - match goal with |- wt ?t (?f ?x) => apply (ltac:(auto 8 with reify) : typed t f) end.
  - match goal with |- wt ?t (?f ?x) => apply (ltac:(auto 8 with reify) : typed t f) end.
  - match goal with |- wt ?t (?f ?x) => apply (ltac:(auto 8 with reify) : typed t f) end.
  - match goal with |- wt ?t (?f ?x) => apply (ltac:(auto 8 with reify) : typed t f) end.
  - match goal with |- wt ?t (?f ?x) => apply (ltac:(auto 8 with reify) : typed t f) end.
  - apply typed_slice_in. intros y Hy. apply IH. exact Hy.
  - match goal with |- wt ?t (?f ?x) => apply (ltac:(auto 8 with reify) : typed t f) end.
  - match goal with |- wt ?t (?f ?x) => apply (ltac:(auto 8 with reify) : typed t f) end.
  - match goal with |- wt ?t (?f ?x) => apply (ltac:(auto 8 with reify) : typed t f) end.
  - match goal with |- wt ?t (?f ?x) => apply (ltac:(auto 8 with reify) : typed t f) end.
  - match goal with |- wt ?t (?f ?x) => apply (ltac:(auto 8 with reify) : typed t f) end.
Qed.
#[export] Hint Resolve inv_Service typed_Service : reify.
Lemma vni_Service_all v :
  vni_at (TRef "Service") reify_Service reflect_Service v /\
  vni_at (TSlice (TRef "Service")) (vslice reify_Service) (slice_of reflect_Service) v /\
  vni_at (TPtr (TSlice (TRef "Service"))) (vptr (vslice reify_Service)) (ptr_of (slice_of reflect_Service)) v.
Proof.
  induction v as [| | | | |x IH| |l IH|vs IH] using val_induction; unfold vni_at in *;
    (split; [|split]); intros W;
    try (vm_compute in W; discriminate || contradiction || reflexivity).
  - cbn in W. destruct IH as (_ & IH & _). unfold vptr, ptr_of. cbn [option_map]. rewrite IH by exact W. reflexivity.
  - cbn in W. rewrite list_all_forall in W. unfold vslice, slice_of. cbn [option_map]. do 2 f_equal. rewrite map_map.
    rewrite <- (map_id l) at 2. apply map_ext_in. intros x Hx. rewrite Forall_forall in IH, W. apply (proj1 (IH x Hx)), W, Hx.
  - 
    apply wt_Service_inv in W as (vs' & E & W). injection E as <-. unfold fields_Service in W.
    destruct vs as [|a0 vs]; [destruct W|]. destruct W as [W0 W]. cbn [f_ty] in W0.
    destruct vs as [|a1 vs]; [destruct W|]. destruct W as [W1 W]. cbn [f_ty] in W1.
    destruct vs as [|a2 vs]; [destruct W|]. destruct W as [W2 W]. cbn [f_ty] in W2.
    destruct vs as [|a3 vs]; [destruct W|]. destruct W as [W3 W]. cbn [f_ty] in W3.
    destruct vs as [|a4 vs]; [destruct W|]. destruct W as [W4 W]. cbn [f_ty] in W4.
    destruct vs as [|a5 vs]; [destruct W|]. destruct W as [W5 W]. cbn [f_ty] in W5.
    destruct vs as [|a6 vs]; [destruct W|]. destruct W as [W6 W]. cbn [f_ty] in W6.
    destruct vs as [|a7 vs]; [destruct W|]. destruct W as [W7 W]. cbn [f_ty] in W7.
    destruct vs as [|a8 vs]; [destruct W|]. destruct W as [W8 W]. cbn [f_ty] in W8.
    destruct vs as [|a9 vs]; [destruct W|]. destruct W as [W9 W]. cbn [f_ty] in W9.
    destruct vs as [|a10 vs]; [destruct W|]. destruct W as [W10 W]. cbn [f_ty] in W10.
    destruct vs as [|a11 vs]; [destruct W|]. destruct W as [W11 W]. cbn [f_ty] in W11.
    destruct vs as [|a12 vs]; [destruct W|]. destruct W as [W12 W]. cbn [f_ty] in W12.
    destruct vs as [|a13 vs]; [destruct W|]. destruct W as [W13 W]. cbn [f_ty] in W13.
    destruct vs as [|a14 vs]; [destruct W|]. destruct W as [W14 W]. cbn [f_ty] in W14.
    destruct vs as [|a15 vs]; [destruct W|]. destruct W as [W15 W]. cbn [f_ty] in W15.
    destruct vs as [|a16 vs]; [destruct W|]. destruct W as [W16 W]. cbn [f_ty] in W16.
    destruct vs as [|a17 vs]; [destruct W|]. destruct W as [W17 W]. cbn [f_ty] in W17.
    destruct vs as [|a18 vs]; [destruct W|]. destruct W as [W18 W]. cbn [f_ty] in W18.
    destruct vs as [|? ?]; [clear W|destruct W].
    cbn [reflect_Service]. rewrite reify_Service_fix. cbn [Service_BOMRef Service_Provider Service_Group Service_Name Service_Version Service_Description Service_Endpoints Service_Authenticated Service_CrossesTrustBoundary Service_Data Service_Licenses Service_ExternalReferences Service_Properties Service_Services Service_ReleaseNotes Service_Tags Service_TrustZone Service_PatentAssertions Service_Signature]. rewrite Forall_forall in IH. fields_back.
    + match goal with |- ?f (?g ?v) = _ => match type of W0 with wt ?t _ => exact ((ltac:(auto 8 with reify) : vni t f g) v W0) end end.
    + match goal with |- ?f (?g ?v) = _ => match type of W1 with wt ?t _ => exact ((ltac:(auto 8 with reify) : vni t f g) v W1) end end.
    + match goal with |- ?f (?g ?v) = _ => match type of W2 with wt ?t _ => exact ((ltac:(auto 8 with reify) : vni t f g) v W2) end end.
    + match goal with |- ?f (?g ?v) = _ => match type of W3 with wt ?t _ => exact ((ltac:(auto 8 with reify) : vni t f g) v W3) end end.
    + match goal with |- ?f (?g ?v) = _ => match type of W4 with wt ?t _ => exact ((ltac:(auto 8 with reify) : vni t f g) v W4) end end.
    + match goal with |- ?f (?g ?v) = _ => match type of W5 with wt ?t _ => exact ((ltac:(auto 8 with reify) : vni t f g) v W5) end end.
    + match goal with |- ?f (?g ?v) = _ => match type of W6 with wt ?t _ => exact ((ltac:(auto 8 with reify) : vni t f g) v W6) end end.
    + match goal with |- ?f (?g ?v) = _ => match type of W7 with wt ?t _ => exact ((ltac:(auto 8 with reify) : vni t f g) v W7) end end.
    + match goal with |- ?f (?g ?v) = _ => match type of W8 with wt ?t _ => exact ((ltac:(auto 8 with reify) : vni t f g) v W8) end end.
    + match goal with |- ?f (?g ?v) = _ => match type of W9 with wt ?t _ => exact ((ltac:(auto 8 with reify) : vni t f g) v W9) end end.
    + match goal with |- ?f (?g ?v) = _ => match type of W10 with wt ?t _ => exact ((ltac:(auto 8 with reify) : vni t f g) v W10) end end.
    + match goal with |- ?f (?g ?v) = _ => match type of W11 with wt ?t _ => exact ((ltac:(auto 8 with reify) : vni t f g) v W11) end end.
    + match goal with |- ?f (?g ?v) = _ => match type of W12 with wt ?t _ => exact ((ltac:(auto 8 with reify) : vni t f g) v W12) end end.
    + apply (IH a13); [cbn [In]; auto 40|exact W13].
    + match goal with |- ?f (?g ?v) = _ => match type of W14 with wt ?t _ => exact ((ltac:(auto 8 with reify) : vni t f g) v W14) end end.
    + match goal with |- ?f (?g ?v) = _ => match type of W15 with wt ?t _ => exact ((ltac:(auto 8 with reify) : vni t f g) v W15) end end.
    + match goal with |- ?f (?g ?v) = _ => match type of W16 with wt ?t _ => exact ((ltac:(auto 8 with reify) : vni t f g) v W16) end end.
    + match goal with |- ?f (?g ?v) = _ => match type of W17 with wt ?t _ => exact ((ltac:(auto 8 with reify) : vni t f g) v W17) end end.
    + match goal with |- ?f (?g ?v) = _ => match type of W18 with wt ?t _ => exact ((ltac:(auto 8 with reify) : vni t f g) v W18) end end.
Qed.
Lemma vni_Service : vni (TRef "Service") reify_Service reflect_Service.
Proof. intros v. apply vni_Service_all. Qed.
#[export] Hint Resolve vni_Service : reify.


Lemma kind_Annotator : kind_of (TRef "Annotator") = KStruct fields_Annotator. Proof. reflexivity. Qed.
Lemma wt_Annotator_inv v : wt (TRef "Annotator") v -> exists vs, v = VStruct vs /\ zip_all (fun f x => wt (f_ty f) x) vs fields_Annotator.
Proof.
  intros W. destruct v; cbn [wt] in W; rewrite kind_Annotator in W; try discriminate; try contradiction. eauto.
Qed.
Lemma inv_Annotator : inv reify_Annotator reflect_Annotator.
Proof. intros x; unfold reify_Annotator; cbn [reflect_Annotator]; rr; destruct x; reflexivity. Qed.
Lemma typed_Annotator : typed (TRef "Annotator") reify_Annotator.
Proof.
  intros x; unfold reify_Annotator; cbn [wt]; rewrite kind_Annotator; unfold fields_Annotator; cbn [zip_all f_ty]; fields_typed;
    match goal with |- wt ?t (?f ?x) => apply (ltac:(auto 8 with reify) : typed t f) end.
Qed.
Lemma vni_Annotator : vni (TRef "Annotator") reify_Annotator reflect_Annotator.
Proof.
  intros v W.
  apply wt_Annotator_inv in W as (vs & -> & W). unfold fields_Annotator in W.
  destruct vs as [|a0 vs]; [destruct W|]. destruct W as [W0 W]. cbn [f_ty] in W0.
  destruct vs as [|a1 vs]; [destruct W|]. destruct W as [W1 W]. cbn [f_ty] in W1.
  destruct vs as [|a2 vs]; [destruct W|]. destruct W as [W2 W]. cbn [f_ty] in W2.
  destruct vs as [|a3 vs]; [destruct W|]. destruct W as [W3 W]. cbn [f_ty] in W3.
  destruct vs as [|? ?]; [clear W|destruct W].
  cbn [reflect_Annotator]. unfold reify_Annotator. cbn [Annotator_Organization Annotator_Individual Annotator_Component Annotator_Service]. fields_back.
  - match goal with |- ?f (?g ?v) = _ => match type of W0 with wt ?t _ => exact ((ltac:(auto 8 with reify) : vni t f g) v W0) end end.
  - match goal with |- ?f (?g ?v) = _ => match type of W1 with wt ?t _ => exact ((ltac:(auto 8 with reify) : vni t f g) v W1) end end.
  - match goal with |- ?f (?g ?v) = _ => match type of W2 with wt ?t _ => exact ((ltac:(auto 8 with reify) : vni t f g) v W2) end end.
  - match goal with |- ?f (?g ?v) = _ => match type of W3 with wt ?t _ => exact ((ltac:(auto 8 with reify) : vni t f g) v W3) end end.
Qed.
#[export] Hint Resolve inv_Annotator typed_Annotator vni_Annotator : reify.

Lemma kind_Annotation : kind_of (TRef "Annotation") = KStruct fields_Annotation. Proof. reflexivity. Qed.
Lemma wt_Annotation_inv v : wt (TRef "Annotation") v -> exists vs, v = VStruct vs /\ zip_all (fun f x => wt (f_ty f) x) vs fields_Annotation.
Proof.
  intros W. destruct v; cbn [wt] in W; rewrite kind_Annotation in W; try discriminate; try contradiction. eauto.
Qed.
Lemma inv_Annotation : inv reify_Annotation reflect_Annotation.
Proof. intros x; unfold reify_Annotation; cbn [reflect_Annotation]; rr; destruct x; reflexivity. Qed.
Lemma typed_Annotation : typed (TRef "Annotation") reify_Annotation.
Proof.
  intros x; unfold reify_Annotation; cbn [wt]; rewrite kind_Annotation; unfold fields_Annotation; cbn [zip_all f_ty]; fields_typed;
    match goal with |- wt ?t (?f ?x) => apply (ltac:(auto 8 with reify) : typed t f) end.
Qed.
Lemma vni_Annotation : vni (TRef "Annotation") reify_Annotation reflect_Annotation.
Proof.
  intros v W.
  apply wt_Annotation_inv in W as (vs & -> & W). unfold fields_Annotation in W.
  destruct vs as [|a0 vs]; [destruct W|]. destruct W as [W0 W]. cbn [f_ty] in W0.
  destruct vs as [|a1 vs]; [destruct W|]. destruct W as [W1 W]. cbn [f_ty] in W1.
  destruct vs as [|a2 vs]; [destruct W|]. destruct W as [W2 W]. cbn [f_ty] in W2.
  destruct vs as [|a3 vs]; [destruct W|]. destruct W as [W3 W]. cbn [f_ty] in W3.
  destruct vs as [|a4 vs]; [destruct W|]. destruct W as [W4 W]. cbn [f_ty] in W4.
  destruct vs as [|a5 vs]; [destruct W|]. destruct W as [W5 W]. cbn [f_ty] in W5.
  destruct vs as [|? ?]; [clear W|destruct W].
  cbn [reflect_Annotation]. unfold reify_Annotation. cbn [Annotation_BOMRef Annotation_Subjects Annotation_Annotator Annotation_Timestamp Annotation_Text Annotation_Signature]. fields_back.
  - match goal with |- ?f (?g ?v) = _ => match type of W0 with wt ?t _ => exact ((ltac:(auto 8 with reify) : vni t f g) v W0) end end.
  - match goal with |- ?f (?g ?v) = _ => match type of W1 with wt ?t _ => exact ((ltac:(auto 8 with reify) : vni t f g) v W1) end end.
  - match goal with |- ?f (?g ?v) = _ => match type of W2 with wt ?t _ => exact ((ltac:(auto 8 with reify) : vni t f g) v W2) end end.
  - match goal with |- ?f (?g ?v) = _ => match type of W3 with wt ?t _ => exact ((ltac:(auto 8 with reify) : vni t f g) v W3) end end.
  - match goal with |- ?f (?g ?v) = _ => match type of W4 with wt ?t _ => exact ((ltac:(auto 8 with reify) : vni t f g) v W4) end end.
  - match goal with |- ?f (?g ?v) = _ => match type of W5 with wt ?t _ => exact ((ltac:(auto 8 with reify) : vni t f g) v W5) end end.
Qed.
#[export] Hint Resolve inv_Annotation typed_Annotation vni_Annotation : reify.

Lemma kind_Assessor : kind_of (TRef "Assessor") = KStruct fields_Assessor. Proof. reflexivity. Qed.
Lemma wt_Assessor_inv v : wt (TRef "Assessor") v -> exists vs, v = VStruct vs /\ zip_all (fun f x => wt (f_ty f) x) vs fields_Assessor.
Proof.
  intros W. destruct v; cbn [wt] in W; rewrite kind_Assessor in W; try discriminate; try contradiction. eauto.
Qed.
Lemma inv_Assessor : inv reify_Assessor reflect_Assessor.
Proof. intros x; unfold reify_Assessor; cbn [reflect_Assessor]; rr; destruct x; reflexivity. Qed.
Lemma typed_Assessor : typed (TRef "Assessor") reify_Assessor.
Proof.
  intros x; unfold reify_Assessor; cbn [wt]; rewrite kind_Assessor; unfold fields_Assessor; cbn [zip_all f_ty]; fields_typed;
    match goal with |- wt ?t (?f ?x) => apply (ltac:(auto 8 with reify) : typed t f) end.
Qed.
Lemma vni_Assessor : vni (TRef "Assessor") reify_Assessor reflect_Assessor.
Proof.
  intros v W.
  apply wt_Assessor_inv in W as (vs & -> & W). unfold fields_Assessor in W.
  destruct vs as [|a0 vs]; [destruct W|]. destruct W as [W0 W]. cbn [f_ty] in W0.
  destruct vs as [|a1 vs]; [destruct W|]. destruct W as [W1 W]. cbn [f_ty] in W1.
  destruct vs as [|a2 vs]; [destruct W|]. destruct W as [W2 W]. cbn [f_ty] in W2.
  destruct vs as [|? ?]; [clear W|destruct W].
  cbn [reflect_Assessor]. unfold reify_Assessor. cbn [Assessor_BOMRef Assessor_ThirdParty Assessor_Organization]. fields_back.
  - match goal with |- ?f (?g ?v) = _ => match type of W0 with wt ?t _ => exact ((ltac:(auto 8 with reify) : vni t f g) v W0) end end.
  - match goal with |- ?f (?g ?v) = _ => match type of W1 with wt ?t _ => exact ((ltac:(auto 8 with reify) : vni t f g) v W1) end end.
  - match goal with |- ?f (?g ?v) = _ => match type of W2 with wt ?t _ => exact ((ltac:(auto 8 with reify) : vni t f g) v W2) end end.
Qed.
#[export] Hint Resolve inv_Assessor typed_Assessor vni_Assessor : reify.

Lemma kind_AttestationConformance : kind_of (TRef "AttestationConformance") = KStruct fields_AttestationConformance. Proof. reflexivity. Qed.
Lemma wt_AttestationConformance_inv v : wt (TRef "AttestationConformance") v -> exists vs, v = VStruct vs /\ zip_all (fun f x => wt (f_ty f) x) vs fields_AttestationConformance.
Proof.
  intros W. destruct v; cbn [wt] in W; rewrite kind_AttestationConformance in W; try discriminate; try contradiction. eauto.
Qed.
Lemma inv_AttestationConformance : inv reify_AttestationConformance reflect_AttestationConformance.
Proof. intros x; unfold reify_AttestationConformance; cbn [reflect_AttestationConformance]; rr; destruct x; reflexivity. Qed.
Lemma typed_AttestationConformance : typed (TRef "AttestationConformance") reify_AttestationConformance.
Proof.
  intros x; unfold reify_AttestationConformance; cbn [wt]; rewrite kind_AttestationConformance; unfold fields_AttestationConformance; cbn [zip_all f_ty]; fields_typed;
    match goal with |- wt ?t (?f ?x) => apply (ltac:(auto 8 with reify) : typed t f) end.
Qed.
Lemma vni_AttestationConformance : vni (TRef "AttestationConformance") reify_AttestationConformance reflect_AttestationConformance.
Proof.
  intros v W.
  apply wt_AttestationConformance_inv in W as (vs & -> & W). unfold fields_AttestationConformance in W.
  destruct vs as [|a0 vs]; [destruct W|]. destruct W as [W0 W]. cbn [f_ty] in W0.
  destruct vs as [|a1 vs]; [destruct W|]. destruct W as [W1 W]. cbn [f_ty] in W1.
  destruct vs as [|a2 vs]; [destruct W|]. destruct W as [W2 W]. cbn [f_ty] in W2.
  destruct vs as [|? ?]; [clear W|destruct W].
  cbn [reflect_AttestationConformance]. unfold reify_AttestationConformance. cbn [AttestationConformance_Score AttestationConformance_Rationale AttestationConformance_MitigationStrategies]. fields_back.
  - match goal with |- ?f (?g ?v) = _ => match type of W0 with wt ?t _ => exact ((ltac:(auto 8 with reify) : vni t f g) v W0) end end.
  - match goal with |- ?f (?g ?v) = _ => match type of W1 with wt ?t _ => exact ((ltac:(auto 8 with reify) : vni t f g) v W1) end end.
  - match goal with |- ?f (?g ?v) = _ => match type of W2 with wt ?t _ => exact ((ltac:(auto 8 with reify) : vni t f g) v W2) end end.
Qed.
#[export] Hint Resolve inv_AttestationConformance typed_AttestationConformance vni_AttestationConformance : reify.

Lemma kind_AttestationConfidence : kind_of (TRef "AttestationConfidence") = KStruct fields_AttestationConfidence. Proof. reflexivity. Qed.
Lemma wt_AttestationConfidence_inv v : wt (TRef "AttestationConfidence") v -> exists vs, v = VStruct vs /\ zip_all (fun f x => wt (f_ty f) x) vs fields_AttestationConfidence.
Proof.
  intros W. destruct v; cbn [wt] in W; rewrite kind_AttestationConfidence in W; try discriminate; try contradiction. eauto.
Qed.
Lemma inv_AttestationConfidence : inv reify_AttestationConfidence reflect_AttestationConfidence.
Proof. intros x; unfold reify_AttestationConfidence; cbn [reflect_AttestationConfidence]; rr; destruct x; reflexivity. Qed.
Lemma typed_AttestationConfidence : typed (TRef "AttestationConfidence") reify_AttestationConfidence.
Proof.
  intros x; unfold reify_AttestationConfidence; cbn [wt]; rewrite kind_AttestationConfidence; unfold fields_AttestationConfidence; cbn [zip_all f_ty]; fields_typed;
    match goal with |- wt ?t (?f ?x) => apply (ltac:(auto 8 with reify) : typed t f) end.
Qed.
Lemma vni_AttestationConfidence : vni (TRef "AttestationConfidence") reify_AttestationConfidence reflect_AttestationConfidence.
Proof.
  intros v W.
  apply wt_AttestationConfidence_inv in W as (vs & -> & W). unfold fields_AttestationConfidence in W.
  destruct vs as [|a0 vs]; [destruct W|]. destruct W as [W0 W]. cbn [f_ty] in W0.
  destruct vs as [|a1 vs]; [destruct W|]. destruct W as [W1 W]. cbn [f_ty] in W1.
  destruct vs as [|? ?]; [clear W|destruct W].
  cbn [reflect_AttestationConfidence]. unfold reify_AttestationConfidence. cbn [AttestationConfidence_Score AttestationConfidence_Rationale]. fields_back.
  - match goal with |- ?f (?g ?v) = _ => match type of W0 with wt ?t _ => exact ((ltac:(auto 8 with reify) : vni t f g) v W0) end end.
  - match goal with |- ?f (?g ?v) = _ => match type of W1 with wt ?t _ => exact ((ltac:(auto 8 with reify) : vni t f g) v W1) end end.
Qed.
#[export] Hint Resolve inv_AttestationConfidence typed_AttestationConfidence vni_AttestationConfidence : reify.

Lemma kind_AttestationMap : kind_of (TRef "AttestationMap") = KStruct fields_AttestationMap. Proof. reflexivity. Qed.
Lemma wt_AttestationMap_inv v : wt (TRef "AttestationMap") v -> exists vs, v = VStruct vs /\ zip_all (fun f x => wt (f_ty f) x) vs fields_AttestationMap.
Proof.
  intros W. destruct v; cbn [wt] in W; rewrite kind_AttestationMap in W; try discriminate; try contradiction. eauto.
Qed.
Lemma inv_AttestationMap : inv reify_AttestationMap reflect_AttestationMap.
Proof. intros x; unfold reify_AttestationMap; cbn [reflect_AttestationMap]; rr; destruct x; reflexivity. Qed.
Lemma typed_AttestationMap : typed (TRef "AttestationMap") reify_AttestationMap.
Proof.
  intros x; unfold reify_AttestationMap; cbn [wt]; rewrite kind_AttestationMap; unfold fields_AttestationMap; cbn [zip_all f_ty]; fields_typed;
    match goal with |- wt ?t (?f ?x) => apply (ltac:(auto 8 with reify) : typed t f) end.
Qed.
Lemma vni_AttestationMap : vni (TRef "AttestationMap") reify_AttestationMap reflect_AttestationMap.
Proof.
  intros v W.
  apply wt_AttestationMap_inv in W as (vs & -> & W). unfold fields_AttestationMap in W.
  destruct vs as [|a0 vs]; [destruct W|]. destruct W as [W0 W]. cbn [f_ty] in W0.
  destruct vs as [|a1 vs]; [destruct W|]. destruct W as [W1 W]. cbn [f_ty] in W1.
  destruct vs as [|a2 vs]; [destruct W|]. destruct W as [W2 W]. cbn [f_ty] in W2.
  destruct vs as [|a3 vs]; [destruct W|]. destruct W as [W3 W]. cbn [f_ty] in W3.
  destruct vs as [|a4 vs]; [destruct W|]. destruct W as [W4 W]. cbn [f_ty] in W4.
  destruct vs as [|? ?]; [clear W|destruct W].
  cbn [reflect_AttestationMap]. unfold reify_AttestationMap. cbn [AttestationMap_Requirement AttestationMap_Claims AttestationMap_CounterClaims AttestationMap_Conformance AttestationMap_Confidence]. fields_back.
  - match goal with |- ?f (?g ?v) = _ => match type of W0 with wt ?t _ => exact ((ltac:(auto 8 with reify) : vni t f g) v W0) end end.
  - match goal with |- ?f (?g ?v) = _ => match type of W1 with wt ?t _ => exact ((ltac:(auto 8 with reify) : vni t f g) v W1) end end.
  - match goal with |- ?f (?g ?v) = _ => match type of W2 with wt ?t _ => exact ((ltac:(auto 8 with reify) : vni t f g) v W2) end end.
  - match goal with |- ?f (?g ?v) = _ => match type of W3 with wt ?t _ => exact ((ltac:(auto 8 with reify) : vni t f g) v W3) end end.
  - match goal with |- ?f (?g ?v) = _ => match type of W4 with wt ?t _ => exact ((ltac:(auto 8 with reify) : vni t f g) v W4) end end.
Qed.
#[export] Hint Resolve inv_AttestationMap typed_AttestationMap vni_AttestationMap : reify.

Lemma kind_Attestation : kind_of (TRef "Attestation") = KStruct fields_Attestation. Proof. reflexivity. Qed.
Lemma wt_Attestation_inv v : wt (TRef "Attestation") v -> exists vs, v = VStruct vs /\ zip_all (fun f x => wt (f_ty f) x) vs fields_Attestation.
Proof.
  intros W. destruct v; cbn [wt] in W; rewrite kind_Attestation in W; try discriminate; try contradiction. eauto.
Qed.
Lemma inv_Attestation : inv reify_Attestation reflect_Attestation.
Proof. intros x; unfold reify_Attestation; cbn [reflect_Attestation]; rr; destruct x; reflexivity. Qed.
Lemma typed_Attestation : typed (TRef "Attestation") reify_Attestation.
Proof.
  intros x; unfold reify_Attestation; cbn [wt]; rewrite kind_Attestation; unfold fields_Attestation; cbn [zip_all f_ty]; fields_typed;
    match goal with |- wt ?t (?f ?x) => apply (ltac:(auto 8 with reify) : typed t f) end.
Qed.
Lemma vni_Attestation : vni (TRef "Attestation") reify_Attestation reflect_Attestation.
Proof.
  intros v W.
  apply wt_Attestation_inv in W as (vs & -> & W). unfold fields_Attestation in W.
  destruct vs as [|a0 vs]; [destruct W|]. destruct W as [W0 W]. cbn [f_ty] in W0.
  destruct vs as [|a1 vs]; [destruct W|]. destruct W as [W1 W]. cbn [f_ty] in W1.
  destruct vs as [|a2 vs]; [destruct W|]. destruct W as [W2 W]. cbn [f_ty] in W2.
  destruct vs as [|a3 vs]; [destruct W|]. destruct W as [W3 W]. cbn [f_ty] in W3.
  destruct vs as [|? ?]; [clear W|destruct W].
  cbn [reflect_Attestation]. unfold reify_Attestation. cbn [Attestation_Summary Attestation_Assessor Attestation_Map Attestation_Signature]. fields_back.
  - match goal with |- ?f (?g ?v) = _ => match type of W0 with wt ?t _ => exact ((ltac:(auto 8 with reify) : vni t f g) v W0) end end.
  - match goal with |- ?f (?g ?v) = _ => match type of W1 with wt ?t _ => exact ((ltac:(auto 8 with reify) : vni t f g) v W1) end end.
  - match goal with |- ?f (?g ?v) = _ => match type of W2 with wt ?t _ => exact ((ltac:(auto 8 with reify) : vni t f g) v W2) end end.
  - match goal with |- ?f (?g ?v) = _ => match type of W3 with wt ?t _ => exact ((ltac:(auto 8 with reify) : vni t f g) v W3) end end.
Qed.
#[export] Hint Resolve inv_Attestation typed_Attestation vni_Attestation : reify.

Lemma kind_Lifecycle : kind_of (TRef "Lifecycle") = KStruct fields_Lifecycle. Proof. reflexivity. Qed.
Lemma wt_Lifecycle_inv v : wt (TRef "Lifecycle") v -> exists vs, v = VStruct vs /\ zip_all (fun f x => wt (f_ty f) x) vs fields_Lifecycle.
Proof.
  intros W. destruct v; cbn [wt] in W; rewrite kind_Lifecycle in W; try discriminate; try contradiction. eauto.
Qed.
Lemma inv_Lifecycle : inv reify_Lifecycle reflect_Lifecycle.
Proof. intros x; unfold reify_Lifecycle; cbn [reflect_Lifecycle]; rr; destruct x; reflexivity. Qed.
Lemma typed_Lifecycle : typed (TRef "Lifecycle") reify_Lifecycle.
Proof.
  intros x; unfold reify_Lifecycle; cbn [wt]; rewrite kind_Lifecycle; unfold fields_Lifecycle; cbn [zip_all f_ty]; fields_typed;
    match goal with |- wt ?t (?f ?x) => apply (ltac:(auto 8 with reify) : typed t f) end.
Qed.
Lemma vni_Lifecycle : vni (TRef "Lifecycle") reify_Lifecycle reflect_Lifecycle.
Proof.
  intros v W.
  apply wt_Lifecycle_inv in W as (vs & -> & W). unfold fields_Lifecycle in W.
  destruct vs as [|a0 vs]; [destruct W|]. destruct W as [W0 W]. cbn [f_ty] in W0.
  destruct vs as [|a1 vs]; [destruct W|]. destruct W as [W1 W]. cbn [f_ty] in W1.
  destruct vs as [|a2 vs]; [destruct W|]. destruct W as [W2 W]. cbn [f_ty] in W2.
  destruct vs as [|? ?]; [clear W|destruct W].
  cbn [reflect_Lifecycle]. unfold reify_Lifecycle. cbn [Lifecycle_Name Lifecycle_Phase Lifecycle_Description]. fields_back.
  - match goal with |- ?f (?g ?v) = _ => match type of W0 with wt ?t _ => exact ((ltac:(auto 8 with reify) : vni t f g) v W0) end end.
  - match goal with |- ?f (?g ?v) = _ => match type of W1 with wt ?t _ => exact ((ltac:(auto 8 with reify) : vni t f g) v W1) end end.
  - match goal with |- ?f (?g ?v) = _ => match type of W2 with wt ?t _ => exact ((ltac:(auto 8 with reify) : vni t f g) v W2) end end.
Qed.
#[export] Hint Resolve inv_Lifecycle typed_Lifecycle vni_Lifecycle : reify.

Lemma kind_Tool : kind_of (TRef "Tool") = KStruct fields_Tool. Proof. reflexivity. Qed.
Lemma wt_Tool_inv v : wt (TRef "Tool") v -> exists vs, v = VStruct vs /\ zip_all (fun f x => wt (f_ty f) x) vs fields_Tool.
Proof.
  intros W. destruct v; cbn [wt] in W; rewrite kind_Tool in W; try discriminate; try contradiction. eauto.
Qed.
Lemma inv_Tool : inv reify_Tool reflect_Tool.
Proof. intros x; unfold reify_Tool; cbn [reflect_Tool]; rr; destruct x; reflexivity. Qed.
Lemma typed_Tool : typed (TRef "Tool") reify_Tool.
Proof.
  intros x; unfold reify_Tool; cbn [wt]; rewrite kind_Tool; unfold fields_Tool; cbn [zip_all f_ty]; fields_typed;
    match goal with |- wt ?t (?f ?x) => apply (ltac:(auto 8 with reify) : typed t f) end.
Qed.
Lemma vni_Tool : vni (TRef "Tool") reify_Tool reflect_Tool.
Proof.
  intros v W.
  apply wt_Tool_inv in W as (vs & -> & W). unfold fields_Tool in W.
  destruct vs as [|a0 vs]; [destruct W|]. destruct W as [W0 W]. cbn [f_ty] in W0.
  destruct vs as [|a1 vs]; [destruct W|]. destruct W as [W1 W]. cbn [f_ty] in W1.
  destruct vs as [|a2 vs]; [destruct W|]. destruct W as [W2 W]. cbn [f_ty] in W2.
  destruct vs as [|a3 vs]; [destruct W|]. destruct W as [W3 W]. cbn [f_ty] in W3.
  destruct vs as [|a4 vs]; [destruct W|]. destruct W as [W4 W]. cbn [f_ty] in W4.
  destruct vs as [|? ?]; [clear W|destruct W].
  cbn [reflect_Tool]. unfold reify_Tool. cbn [Tool_Vendor Tool_Name Tool_Version Tool_Hashes Tool_ExternalReferences]. fields_back.
  - match goal with |- ?f (?g ?v) = _ => match type of W0 with wt ?t _ => exact ((ltac:(auto 8 with reify) : vni t f g) v W0) end end.
  - match goal with |- ?f (?g ?v) = _ => match type of W1 with wt ?t _ => exact ((ltac:(auto 8 with reify) : vni t f g) v W1) end end.
  - match goal with |- ?f (?g ?v) = _ => match type of W2 with wt ?t _ => exact ((ltac:(auto 8 with reify) : vni t f g) v W2) end end.
  - match goal with |- ?f (?g ?v) = _ => match type of W3 with wt ?t _ => exact ((ltac:(auto 8 with reify) : vni t f g) v W3) end end.
  - match goal with |- ?f (?g ?v) = _ => match type of W4 with wt ?t _ => exact ((ltac:(auto 8 with reify) : vni t f g) v W4) end end.
Qed.
#[export] Hint Resolve inv_Tool typed_Tool vni_Tool : reify.

Lemma kind_ToolsChoice : kind_of (TRef "ToolsChoice") = KStruct fields_ToolsChoice. Proof. reflexivity. Qed.
Lemma wt_ToolsChoice_inv v : wt (TRef "ToolsChoice") v -> exists vs, v = VStruct vs /\ zip_all (fun f x => wt (f_ty f) x) vs fields_ToolsChoice.
Proof.
  intros W. destruct v; cbn [wt] in W; rewrite kind_ToolsChoice in W; try discriminate; try contradiction. eauto.
Qed.
Lemma inv_ToolsChoice : inv reify_ToolsChoice reflect_ToolsChoice.
Proof. intros x; unfold reify_ToolsChoice; cbn [reflect_ToolsChoice]; rr; destruct x; reflexivity. Qed.
Lemma typed_ToolsChoice : typed (TRef "ToolsChoice") reify_ToolsChoice.
Proof.
  intros x; unfold reify_ToolsChoice; cbn [wt]; rewrite kind_ToolsChoice; unfold fields_ToolsChoice; cbn [zip_all f_ty]; fields_typed;
    match goal with |- wt ?t (?f ?x) => apply (ltac:(auto 8 with reify) : typed t f) end.
Qed.
Lemma vni_ToolsChoice : vni (TRef "ToolsChoice") reify_ToolsChoice reflect_ToolsChoice.
Proof.
  intros v W.
  apply wt_ToolsChoice_inv in W as (vs & -> & W). unfold fields_ToolsChoice in W.
  destruct vs as [|a0 vs]; [destruct W|]. destruct W as [W0 W]. cbn [f_ty] in W0.
  destruct vs as [|a1 vs]; [destruct W|]. destruct W as [W1 W]. cbn [f_ty] in W1.
  destruct vs as [|a2 vs]; [destruct W|]. destruct W as [W2 W]. cbn [f_ty] in W2.
  destruct vs as [|? ?]; [clear W|destruct W].
  cbn [reflect_ToolsChoice]. unfold reify_ToolsChoice. cbn [ToolsChoice_Tools ToolsChoice_Components ToolsChoice_Services]. fields_back.
  - match goal with |- ?f (?g ?v) = _ => match type of W0 with wt ?t _ => exact ((ltac:(auto 8 with reify) : vni t f g) v W0) end end.
  - match goal with |- ?f (?g ?v) = _ => match type of W1 with wt ?t _ => exact ((ltac:(auto 8 with reify) : vni t f g) v W1) end end.
  - match goal with |- ?f (?g ?v) = _ => match type of W2 with wt ?t _ => exact ((ltac:(auto 8 with reify) : vni t f g) v W2) end end.
Qed.
#[export] Hint Resolve inv_ToolsChoice typed_ToolsChoice vni_ToolsChoice : reify.

Lemma kind_DistributionConstraints : kind_of (TRef "DistributionConstraints") = KStruct fields_DistributionConstraints. Proof. reflexivity. Qed.
Lemma wt_DistributionConstraints_inv v : wt (TRef "DistributionConstraints") v -> exists vs, v = VStruct vs /\ zip_all (fun f x => wt (f_ty f) x) vs fields_DistributionConstraints.
Proof.
  intros W. destruct v; cbn [wt] in W; rewrite kind_DistributionConstraints in W; try discriminate; try contradiction. eauto.
Qed.
Lemma inv_DistributionConstraints : inv reify_DistributionConstraints reflect_DistributionConstraints.
Proof. intros x; unfold reify_DistributionConstraints; cbn [reflect_DistributionConstraints]; rr; destruct x; reflexivity. Qed.
Lemma typed_DistributionConstraints : typed (TRef "DistributionConstraints") reify_DistributionConstraints.
Proof.
  intros x; unfold reify_DistributionConstraints; cbn [wt]; rewrite kind_DistributionConstraints; unfold fields_DistributionConstraints; cbn [zip_all f_ty]; fields_typed;
    match goal with |- wt ?t (?f ?x) => apply (ltac:(auto 8 with reify) : typed t f) end.
Qed.
Lemma vni_DistributionConstraints : vni (TRef "DistributionConstraints") reify_DistributionConstraints reflect_DistributionConstraints.
Proof.
  intros v W.
  apply wt_DistributionConstraints_inv in W as (vs & -> & W). unfold fields_DistributionConstraints in W.
  destruct vs as [|a0 vs]; [destruct W|]. destruct W as [W0 W]. cbn [f_ty] in W0.
  destruct vs as [|? ?]; [clear W|destruct W].
  cbn [reflect_DistributionConstraints]. unfold reify_DistributionConstraints. cbn [DistributionConstraints_TLP]. fields_back.
  - match goal with |- ?f (?g ?v) = _ => match type of W0 with wt ?t _ => exact ((ltac:(auto 8 with reify) : vni t f g) v W0) end end.
Qed.
#[export] Hint Resolve inv_DistributionConstraints typed_DistributionConstraints vni_DistributionConstraints : reify.

Lemma kind_Metadata : kind_of (TRef "Metadata") = KStruct fields_Metadata. Proof. reflexivity. Qed.
Lemma wt_Metadata_inv v : wt (TRef "Metadata") v -> exists vs, v = VStruct vs /\ zip_all (fun f x => wt (f_ty f) x) vs fields_Metadata.
Proof.
  intros W. destruct v; cbn [wt] in W; rewrite kind_Metadata in W; try discriminate; try contradiction. eauto.
Qed.
Lemma inv_Metadata : inv reify_Metadata reflect_Metadata.
Proof. intros x; unfold reify_Metadata; cbn [reflect_Metadata]; rr; destruct x; reflexivity. Qed.
Lemma typed_Metadata : typed (TRef "Metadata") reify_Metadata.
Proof.
  intros x; unfold reify_Metadata; cbn [wt]; rewrite kind_Metadata; unfold fields_Metadata; cbn [zip_all f_ty]; fields_typed;
    match goal with |- wt ?t (?f ?x) => apply (ltac:(auto 8 with reify) : typed t f) end.
Qed.
Lemma vni_Metadata : vni (TRef "Metadata") reify_Metadata reflect_Metadata.
Proof.
  intros v W.
  apply wt_Metadata_inv in W as (vs & -> & W). unfold fields_Metadata in W.
  destruct vs as [|a0 vs]; [destruct W|]. destruct W as [W0 W]. cbn [f_ty] in W0.
  destruct vs as [|a1 vs]; [destruct W|]. destruct W as [W1 W]. cbn [f_ty] in W1.
  destruct vs as [|a2 vs]; [destruct W|]. destruct W as [W2 W]. cbn [f_ty] in W2.
  destruct vs as [|a3 vs]; [destruct W|]. destruct W as [W3 W]. cbn [f_ty] in W3.
  destruct vs as [|a4 vs]; [destruct W|]. destruct W as [W4 W]. cbn [f_ty] in W4.
  destruct vs as [|a5 vs]; [destruct W|]. destruct W as [W5 W]. cbn [f_ty] in W5.
  destruct vs as [|a6 vs]; [destruct W|]. destruct W as [W6 W]. cbn [f_ty] in W6.
  destruct vs as [|a7 vs]; [destruct W|]. destruct W as [W7 W]. cbn [f_ty] in W7.
  destruct vs as [|a8 vs]; [destruct W|]. destruct W as [W8 W]. cbn [f_ty] in W8.
  destruct vs as [|a9 vs]; [destruct W|]. destruct W as [W9 W]. cbn [f_ty] in W9.
  destruct vs as [|a10 vs]; [destruct W|]. destruct W as [W10 W]. cbn [f_ty] in W10.
  destruct vs as [|? ?]; [clear W|destruct W].
  cbn [reflect_Metadata]. unfold reify_Metadata. cbn [Metadata_Timestamp Metadata_Lifecycles Metadata_Tools Metadata_Authors Metadata_Component Metadata_Manufacture Metadata_Manufacturer Metadata_Supplier Metadata_Licenses Metadata_Properties Metadata_DistributionConstraints]. fields_back.
  - match goal with |- ?f (?g ?v) = _ => match type of W0 with wt ?t _ => exact ((ltac:(auto 8 with reify) : vni t f g) v W0) end end.
  - match goal with |- ?f (?g ?v) = _ => match type of W1 with wt ?t _ => exact ((ltac:(auto 8 with reify) : vni t f g) v W1) end end.
  - match goal with |- ?f (?g ?v) = _ => match type of W2 with wt ?t _ => exact ((ltac:(auto 8 with reify) : vni t f g) v W2) end end.
  - match goal with |- ?f (?g ?v) = _ => match type of W3 with wt ?t _ => exact ((ltac:(auto 8 with reify) : vni t f g) v W3) end end.
  - match goal with |- ?f (?g ?v) = _ => match type of W4 with wt ?t _ => exact ((ltac:(auto 8 with reify) : vni t f g) v W4) end end.
  - match goal with |- ?f (?g ?v) = _ => match type of W5 with wt ?t _ => exact ((ltac:(auto 8 with reify) : vni t f g) v W5) end end.
  - match goal with |- ?f (?g ?v) = _ => match type of W6 with wt ?t _ => exact ((ltac:(auto 8 with reify) : vni t f g) v W6) end end.
  - match goal with |- ?f (?g ?v) = _ => match type of W7 with wt ?t _ => exact ((ltac:(auto 8 with reify) : vni t f g) v W7) end end.
  - match goal with |- ?f (?g ?v) = _ => match type of W8 with wt ?t _ => exact ((ltac:(auto 8 with reify) : vni t f g) v W8) end end.
  - match goal with |- ?f (?g ?v) = _ => match type of W9 with wt ?t _ => exact ((ltac:(auto 8 with reify) : vni t f g) v W9) end end.
  - match goal with |- ?f (?g ?v) = _ => match type of W10 with wt ?t _ => exact ((ltac:(auto 8 with reify) : vni t f g) v W10) end end.
Qed.
#[export] Hint Resolve inv_Metadata typed_Metadata vni_Metadata : reify.

Lemma kind_Dependency : kind_of (TRef "Dependency") = KStruct fields_Dependency. Proof. reflexivity. Qed.
Lemma wt_Dependency_inv v : wt (TRef "Dependency") v -> exists vs, v = VStruct vs /\ zip_all (fun f x => wt (f_ty f) x) vs fields_Dependency.
Proof.
  intros W. destruct v; cbn [wt] in W; rewrite kind_Dependency in W; try discriminate; try contradiction. eauto.
Qed.
Lemma inv_Dependency : inv reify_Dependency reflect_Dependency.
Proof. intros x; unfold reify_Dependency; cbn [reflect_Dependency]; rr; destruct x; reflexivity. Qed.
Lemma typed_Dependency : typed (TRef "Dependency") reify_Dependency.
Proof.
  intros x; unfold reify_Dependency; cbn [wt]; rewrite kind_Dependency; unfold fields_Dependency; cbn [zip_all f_ty]; fields_typed;
    match goal with |- wt ?t (?f ?x) => apply (ltac:(auto 8 with reify) : typed t f) end.
Qed.
Lemma vni_Dependency : vni (TRef "Dependency") reify_Dependency reflect_Dependency.
Proof.
  intros v W.
  apply wt_Dependency_inv in W as (vs & -> & W). unfold fields_Dependency in W.
  destruct vs as [|a0 vs]; [destruct W|]. destruct W as [W0 W]. cbn [f_ty] in W0.
  destruct vs as [|a1 vs]; [destruct W|]. destruct W as [W1 W]. cbn [f_ty] in W1.
  destruct vs as [|a2 vs]; [destruct W|]. destruct W as [W2 W]. cbn [f_ty] in W2.
  destruct vs as [|? ?]; [clear W|destruct W].
  cbn [reflect_Dependency]. unfold reify_Dependency. cbn [Dependency_Ref Dependency_Dependencies Dependency_Provides]. fields_back.
  - match goal with |- ?f (?g ?v) = _ => match type of W0 with wt ?t _ => exact ((ltac:(auto 8 with reify) : vni t f g) v W0) end end.
  - match goal with |- ?f (?g ?v) = _ => match type of W1 with wt ?t _ => exact ((ltac:(auto 8 with reify) : vni t f g) v W1) end end.
  - match goal with |- ?f (?g ?v) = _ => match type of W2 with wt ?t _ => exact ((ltac:(auto 8 with reify) : vni t f g) v W2) end end.
Qed.
#[export] Hint Resolve inv_Dependency typed_Dependency vni_Dependency : reify.

Lemma kind_Composition : kind_of (TRef "Composition") = KStruct fields_Composition. Proof. reflexivity. Qed.
Lemma wt_Composition_inv v : wt (TRef "Composition") v -> exists vs, v = VStruct vs /\ zip_all (fun f x => wt (f_ty f) x) vs fields_Composition.
Proof.
  intros W. destruct v; cbn [wt] in W; rewrite kind_Composition in W; try discriminate; try contradiction. eauto.
Qed.
Lemma inv_Composition : inv reify_Composition reflect_Composition.
Proof. intros x; unfold reify_Composition; cbn [reflect_Composition]; rr; destruct x; reflexivity. Qed.
Lemma typed_Composition : typed (TRef "Composition") reify_Composition.
Proof.
  intros x; unfold reify_Composition; cbn [wt]; rewrite kind_Composition; unfold fields_Composition; cbn [zip_all f_ty]; fields_typed;
    match goal with |- wt ?t (?f ?x) => apply (ltac:(auto 8 with reify) : typed t f) end.
Qed.
Lemma vni_Composition : vni (TRef "Composition") reify_Composition reflect_Composition.
Proof.
  intros v W.
  apply wt_Composition_inv in W as (vs & -> & W). unfold fields_Composition in W.
  destruct vs as [|a0 vs]; [destruct W|]. destruct W as [W0 W]. cbn [f_ty] in W0.
  destruct vs as [|a1 vs]; [destruct W|]. destruct W as [W1 W]. cbn [f_ty] in W1.
  destruct vs as [|a2 vs]; [destruct W|]. destruct W as [W2 W]. cbn [f_ty] in W2.
  destruct vs as [|a3 vs]; [destruct W|]. destruct W as [W3 W]. cbn [f_ty] in W3.
  destruct vs as [|a4 vs]; [destruct W|]. destruct W as [W4 W]. cbn [f_ty] in W4.
  destruct vs as [|a5 vs]; [destruct W|]. destruct W as [W5 W]. cbn [f_ty] in W5.
  destruct vs as [|? ?]; [clear W|destruct W].
  cbn [reflect_Composition]. unfold reify_Composition. cbn [Composition_BOMRef Composition_Aggregate Composition_Assemblies Composition_Dependencies Composition_Vulnerabilities Composition_Signature]. fields_back.
  - match goal with |- ?f (?g ?v) = _ => match type of W0 with wt ?t _ => exact ((ltac:(auto 8 with reify) : vni t f g) v W0) end end.
  - match goal with |- ?f (?g ?v) = _ => match type of W1 with wt ?t _ => exact ((ltac:(auto 8 with reify) : vni t f g) v W1) end end.
  - match goal with |- ?f (?g ?v) = _ => match type of W2 with wt ?t _ => exact ((ltac:(auto 8 with reify) : vni t f g) v W2) end end.
  - match goal with |- ?f (?g ?v) = _ => match type of W3 with wt ?t _ => exact ((ltac:(auto 8 with reify) : vni t f g) v W3) end end.
  - match goal with |- ?f (?g ?v) = _ => match type of W4 with wt ?t _ => exact ((ltac:(auto 8 with reify) : vni t f g) v W4) end end.
  - match goal with |- ?f (?g ?v) = _ => match type of W5 with wt ?t _ => exact ((ltac:(auto 8 with reify) : vni t f g) v W5) end end.
Qed.
#[export] Hint Resolve inv_Composition typed_Composition vni_Composition : reify.

Lemma kind_VulnerabilityReference : kind_of (TRef "VulnerabilityReference") = KStruct fields_VulnerabilityReference. Proof. reflexivity. Qed.
Lemma wt_VulnerabilityReference_inv v : wt (TRef "VulnerabilityReference") v -> exists vs, v = VStruct vs /\ zip_all (fun f x => wt (f_ty f) x) vs fields_VulnerabilityReference.
Proof.
  intros W. destruct v; cbn [wt] in W; rewrite kind_VulnerabilityReference in W; try discriminate; try contradiction. eauto.
Qed.
Lemma inv_VulnerabilityReference : inv reify_VulnerabilityReference reflect_VulnerabilityReference.
Proof. intros x; unfold reify_VulnerabilityReference; cbn [reflect_VulnerabilityReference]; rr; destruct x; reflexivity. Qed.
Lemma typed_VulnerabilityReference : typed (TRef "VulnerabilityReference") reify_VulnerabilityReference.
Proof.
  intros x; unfold reify_VulnerabilityReference; cbn [wt]; rewrite kind_VulnerabilityReference; unfold fields_VulnerabilityReference; cbn [zip_all f_ty]; fields_typed;
    match goal with |- wt ?t (?f ?x) => apply (ltac:(auto 8 with reify) : typed t f) end.
Qed.
Lemma vni_VulnerabilityReference : vni (TRef "VulnerabilityReference") reify_VulnerabilityReference reflect_VulnerabilityReference.
Proof.
  intros v W.
  apply wt_VulnerabilityReference_inv in W as (vs & -> & W). unfold fields_VulnerabilityReference in W.
  destruct vs as [|a0 vs]; [destruct W|]. destruct W as [W0 W]. cbn [f_ty] in W0.
  destruct vs as [|a1 vs]; [destruct W|]. destruct W as [W1 W]. cbn [f_ty] in W1.
  destruct vs as [|? ?]; [clear W|destruct W].
  cbn [reflect_VulnerabilityReference]. unfold reify_VulnerabilityReference. cbn [VulnerabilityReference_ID VulnerabilityReference_Source]. fields_back.
  - match goal with |- ?f (?g ?v) = _ => match type of W0 with wt ?t _ => exact ((ltac:(auto 8 with reify) : vni t f g) v W0) end end.
  - match goal with |- ?f (?g ?v) = _ => match type of W1 with wt ?t _ => exact ((ltac:(auto 8 with reify) : vni t f g) v W1) end end.
Qed.
#[export] Hint Resolve inv_VulnerabilityReference typed_VulnerabilityReference vni_VulnerabilityReference : reify.

Lemma kind_VulnerabilityRating : kind_of (TRef "VulnerabilityRating") = KStruct fields_VulnerabilityRating. Proof. reflexivity. Qed.
Lemma wt_VulnerabilityRating_inv v : wt (TRef "VulnerabilityRating") v -> exists vs, v = VStruct vs /\ zip_all (fun f x => wt (f_ty f) x) vs fields_VulnerabilityRating.
Proof.
  intros W. destruct v; cbn [wt] in W; rewrite kind_VulnerabilityRating in W; try discriminate; try contradiction. eauto.
Qed.
Lemma inv_VulnerabilityRating : inv reify_VulnerabilityRating reflect_VulnerabilityRating.
Proof. intros x; unfold reify_VulnerabilityRating; cbn [reflect_VulnerabilityRating]; rr; destruct x; reflexivity. Qed.
Lemma typed_VulnerabilityRating : typed (TRef "VulnerabilityRating") reify_VulnerabilityRating.
Proof.
  intros x; unfold reify_VulnerabilityRating; cbn [wt]; rewrite kind_VulnerabilityRating; unfold fields_VulnerabilityRating; cbn [zip_all f_ty]; fields_typed;
    match goal with |- wt ?t (?f ?x) => apply (ltac:(auto 8 with reify) : typed t f) end.
Qed.
Lemma vni_VulnerabilityRating : vni (TRef "VulnerabilityRating") reify_VulnerabilityRating reflect_VulnerabilityRating.
Proof.
  intros v W.
  apply wt_VulnerabilityRating_inv in W as (vs & -> & W). unfold fields_VulnerabilityRating in W.
  destruct vs as [|a0 vs]; [destruct W|]. destruct W as [W0 W]. cbn [f_ty] in W0.
  destruct vs as [|a1 vs]; [destruct W|]. destruct W as [W1 W]. cbn [f_ty] in W1.
  destruct vs as [|a2 vs]; [destruct W|]. destruct W as [W2 W]. cbn [f_ty] in W2.
  destruct vs as [|a3 vs]; [destruct W|]. destruct W as [W3 W]. cbn [f_ty] in W3.
  destruct vs as [|a4 vs]; [destruct W|]. destruct W as [W4 W]. cbn [f_ty] in W4.
  destruct vs as [|a5 vs]; [destruct W|]. destruct W as [W5 W]. cbn [f_ty] in W5.
  destruct vs as [|? ?]; [clear W|destruct W].
  cbn [reflect_VulnerabilityRating]. unfold reify_VulnerabilityRating. cbn [VulnerabilityRating_Source VulnerabilityRating_Score VulnerabilityRating_Severity VulnerabilityRating_Method VulnerabilityRating_Vector VulnerabilityRating_Justification]. fields_back.
  - match goal with |- ?f (?g ?v) = _ => match type of W0 with wt ?t _ => exact ((ltac:(auto 8 with reify) : vni t f g) v W0) end end.
  - match goal with |- ?f (?g ?v) = _ => match type of W1 with wt ?t _ => exact ((ltac:(auto 8 with reify) : vni t f g) v W1) end end.
  - match goal with |- ?f (?g ?v) = _ => match type of W2 with wt ?t _ => exact ((ltac:(auto 8 with reify) : vni t f g) v W2) end end.
  - match goal with |- ?f (?g ?v) = _ => match type of W3 with wt ?t _ => exact ((ltac:(auto 8 with reify) : vni t f g) v W3) end end.
  - match goal with |- ?f (?g ?v) = _ => match type of W4 with wt ?t _ => exact ((ltac:(auto 8 with reify) : vni t f g) v W4) end end.
  - match goal with |- ?f (?g ?v) = _ => match type of W5 with wt ?t _ => exact ((ltac:(auto 8 with reify) : vni t f g) v W5) end end.
Qed.
#[export] Hint Resolve inv_VulnerabilityRating typed_VulnerabilityRating vni_VulnerabilityRating : reify.

Lemma kind_ProofOfConcept : kind_of (TRef "ProofOfConcept") = KStruct fields_ProofOfConcept. Proof. reflexivity. Qed.
Lemma wt_ProofOfConcept_inv v : wt (TRef "ProofOfConcept") v -> exists vs, v = VStruct vs /\ zip_all (fun f x => wt (f_ty f) x) vs fields_ProofOfConcept.
Proof.
  intros W. destruct v; cbn [wt] in W; rewrite kind_ProofOfConcept in W; try discriminate; try contradiction. eauto.
Qed.
Lemma inv_ProofOfConcept : inv reify_ProofOfConcept reflect_ProofOfConcept.
Proof. intros x; unfold reify_ProofOfConcept; cbn [reflect_ProofOfConcept]; rr; destruct x; reflexivity. Qed.
Lemma typed_ProofOfConcept : typed (TRef "ProofOfConcept") reify_ProofOfConcept.
Proof.
  intros x; unfold reify_ProofOfConcept; cbn [wt]; rewrite kind_ProofOfConcept; unfold fields_ProofOfConcept; cbn [zip_all f_ty]; fields_typed;
    match goal with |- wt ?t (?f ?x) => apply (ltac:(auto 8 with reify) : typed t f) end.
Qed.
Lemma vni_ProofOfConcept : vni (TRef "ProofOfConcept") reify_ProofOfConcept reflect_ProofOfConcept.
Proof.
  intros v W.
  apply wt_ProofOfConcept_inv in W as (vs & -> & W). unfold fields_ProofOfConcept in W.
  destruct vs as [|a0 vs]; [destruct W|]. destruct W as [W0 W]. cbn [f_ty] in W0.
  destruct vs as [|a1 vs]; [destruct W|]. destruct W as [W1 W]. cbn [f_ty] in W1.
  destruct vs as [|a2 vs]; [destruct W|]. destruct W as [W2 W]. cbn [f_ty] in W2.
  destruct vs as [|? ?]; [clear W|destruct W].
  cbn [reflect_ProofOfConcept]. unfold reify_ProofOfConcept. cbn [ProofOfConcept_ReproductionSteps ProofOfConcept_Environment ProofOfConcept_SupportingMaterial]. fields_back.
  - match goal with |- ?f (?g ?v) = _ => match type of W0 with wt ?t _ => exact ((ltac:(auto 8 with reify) : vni t f g) v W0) end end.
  - match goal with |- ?f (?g ?v) = _ => match type of W1 with wt ?t _ => exact ((ltac:(auto 8 with reify) : vni t f g) v W1) end end.
  - match goal with |- ?f (?g ?v) = _ => match type of W2 with wt ?t _ => exact ((ltac:(auto 8 with reify) : vni t f g) v W2) end end.
Qed.
#[export] Hint Resolve inv_ProofOfConcept typed_ProofOfConcept vni_ProofOfConcept : reify.

Lemma kind_Credits : kind_of (TRef "Credits") = KStruct fields_Credits. Proof. reflexivity. Qed.
Lemma wt_Credits_inv v : wt (TRef "Credits") v -> exists vs, v = VStruct vs /\ zip_all (fun f x => wt (f_ty f) x) vs fields_Credits.
Proof.
  intros W. destruct v; cbn [wt] in W; rewrite kind_Credits in W; try discriminate; try contradiction. eauto.
Qed.
Lemma inv_Credits : inv reify_Credits reflect_Credits.
Proof. intros x; unfold reify_Credits; cbn [reflect_Credits]; rr; destruct x; reflexivity. Qed.
Lemma typed_Credits : typed (TRef "Credits") reify_Credits.
Proof.
  intros x; unfold reify_Credits; cbn [wt]; rewrite kind_Credits; unfold fields_Credits; cbn [zip_all f_ty]; fields_typed;
    match goal with |- wt ?t (?f ?x) => apply (ltac:(auto 8 with reify) : typed t f) end.
Qed.
Lemma vni_Credits : vni (TRef "Credits") reify_Credits reflect_Credits.
Proof.
  intros v W.
  apply wt_Credits_inv in W as (vs & -> & W). unfold fields_Credits in W.
  destruct vs as [|a0 vs]; [destruct W|]. destruct W as [W0 W]. cbn [f_ty] in W0.
  destruct vs as [|a1 vs]; [destruct W|]. destruct W as [W1 W]. cbn [f_ty] in W1.
  destruct vs as [|? ?]; [clear W|destruct W].
  cbn [reflect_Credits]. unfold reify_Credits. cbn [Credits_Organizations Credits_Individuals]. fields_back.
  - match goal with |- ?f (?g ?v) = _ => match type of W0 with wt ?t _ => exact ((ltac:(auto 8 with reify) : vni t f g) v W0) end end.
  - match goal with |- ?f (?g ?v) = _ => match type of W1 with wt ?t _ => exact ((ltac:(auto 8 with reify) : vni t f g) v W1) end end.
Qed.
#[export] Hint Resolve inv_Credits typed_Credits vni_Credits : reify.

Lemma kind_VulnerabilityAnalysis : kind_of (TRef "VulnerabilityAnalysis") = KStruct fields_VulnerabilityAnalysis. Proof. reflexivity. Qed.
Lemma wt_VulnerabilityAnalysis_inv v : wt (TRef "VulnerabilityAnalysis") v -> exists vs, v = VStruct vs /\ zip_all (fun f x => wt (f_ty f) x) vs fields_VulnerabilityAnalysis.
Proof.
  intros W. destruct v; cbn [wt] in W; rewrite kind_VulnerabilityAnalysis in W; try discriminate; try contradiction. eauto.
Qed.
Lemma inv_VulnerabilityAnalysis : inv reify_VulnerabilityAnalysis reflect_VulnerabilityAnalysis.
Proof. intros x; unfold reify_VulnerabilityAnalysis; cbn [reflect_VulnerabilityAnalysis]; rr; destruct x; reflexivity. Qed.
Lemma typed_VulnerabilityAnalysis : typed (TRef "VulnerabilityAnalysis") reify_VulnerabilityAnalysis.
Proof.
  intros x; unfold reify_VulnerabilityAnalysis; cbn [wt]; rewrite kind_VulnerabilityAnalysis; unfold fields_VulnerabilityAnalysis; cbn [zip_all f_ty]; fields_typed;
    match goal with |- wt ?t (?f ?x) => apply (ltac:(auto 8 with reify) : typed t f) end.
Qed.
Lemma vni_VulnerabilityAnalysis : vni (TRef "VulnerabilityAnalysis") reify_VulnerabilityAnalysis reflect_VulnerabilityAnalysis.
Proof.
  intros v W.
  apply wt_VulnerabilityAnalysis_inv in W as (vs & -> & W). unfold fields_VulnerabilityAnalysis in W.
  destruct vs as [|a0 vs]; [destruct W|]. destruct W as [W0 W]. cbn [f_ty] in W0.
  destruct vs as [|a1 vs]; [destruct W|]. destruct W as [W1 W]. cbn [f_ty] in W1.
  destruct vs as [|a2 vs]; [destruct W|]. destruct W as [W2 W]. cbn [f_ty] in W2.
  destruct vs as [|a3 vs]; [destruct W|]. destruct W as [W3 W]. cbn [f_ty] in W3.
  destruct vs as [|a4 vs]; [destruct W|]. destruct W as [W4 W]. cbn [f_ty] in W4.
  destruct vs as [|a5 vs]; [destruct W|]. destruct W as [W5 W]. cbn [f_ty] in W5.
  destruct vs as [|? ?]; [clear W|destruct W].
  cbn [reflect_VulnerabilityAnalysis]. unfold reify_VulnerabilityAnalysis. cbn [VulnerabilityAnalysis_State VulnerabilityAnalysis_Justification VulnerabilityAnalysis_Response VulnerabilityAnalysis_Detail VulnerabilityAnalysis_FirstIssued VulnerabilityAnalysis_LastUpdated]. fields_back.
  - match goal with |- ?f (?g ?v) = _ => match type of W0 with wt ?t _ => exact ((ltac:(auto 8 with reify) : vni t f g) v W0) end end.
  - match goal with |- ?f (?g ?v) = _ => match type of W1 with wt ?t _ => exact ((ltac:(auto 8 with reify) : vni t f g) v W1) end end.
  - match goal with |- ?f (?g ?v) = _ => match type of W2 with wt ?t _ => exact ((ltac:(auto 8 with reify) : vni t f g) v W2) end end.
  - match goal with |- ?f (?g ?v) = _ => match type of W3 with wt ?t _ => exact ((ltac:(auto 8 with reify) : vni t f g) v W3) end end.
  - match goal with |- ?f (?g ?v) = _ => match type of W4 with wt ?t _ => exact ((ltac:(auto 8 with reify) : vni t f g) v W4) end end.
  - match goal with |- ?f (?g ?v) = _ => match type of W5 with wt ?t _ => exact ((ltac:(auto 8 with reify) : vni t f g) v W5) end end.
Qed.
#[export] Hint Resolve inv_VulnerabilityAnalysis typed_VulnerabilityAnalysis vni_VulnerabilityAnalysis : reify.

Lemma kind_Vulnerability : kind_of (TRef "Vulnerability") = KStruct fields_Vulnerability. Proof. reflexivity. Qed.
Lemma wt_Vulnerability_inv v : wt (TRef "Vulnerability") v -> exists vs, v = VStruct vs /\ zip_all (fun f x => wt (f_ty f) x) vs fields_Vulnerability.
Proof.
  intros W. destruct v; cbn [wt] in W; rewrite kind_Vulnerability in W; try discriminate; try contradiction. eauto.
Qed.
Lemma inv_Vulnerability : inv reify_Vulnerability reflect_Vulnerability.
Proof. intros x; unfold reify_Vulnerability; cbn [reflect_Vulnerability]; rr; destruct x; reflexivity. Qed.
Lemma typed_Vulnerability : typed (TRef "Vulnerability") reify_Vulnerability.
Proof.
  intros x; unfold reify_Vulnerability; cbn [wt]; rewrite kind_Vulnerability; unfold fields_Vulnerability; cbn [zip_all f_ty]; fields_typed;
    match goal with |- wt ?t (?f ?x) => apply (ltac:(auto 8 with reify) : typed t f) end.
Qed.
Lemma vni_Vulnerability : vni (TRef "Vulnerability") reify_Vulnerability reflect_Vulnerability.
Proof.
  intros v W.
  apply wt_Vulnerability_inv in W as (vs & -> & W). unfold fields_Vulnerability in W.
  destruct vs as [|a0 vs]; [destruct W|]. destruct W as [W0 W]. cbn [f_ty] in W0.
  destruct vs as [|a1 vs]; [destruct W|]. destruct W as [W1 W]. cbn [f_ty] in W1.
  destruct vs as [|a2 vs]; [destruct W|]. destruct W as [W2 W]. cbn [f_ty] in W2.
  destruct vs as [|a3 vs]; [destruct W|]. destruct W as [W3 W]. cbn [f_ty] in W3.
  destruct vs as [|a4 vs]; [destruct W|]. destruct W as [W4 W]. cbn [f_ty] in W4.
  destruct vs as [|a5 vs]; [destruct W|]. destruct W as [W5 W]. cbn [f_ty] in W5.
  destruct vs as [|a6 vs]; [destruct W|]. destruct W as [W6 W]. cbn [f_ty] in W6.
  destruct vs as [|a7 vs]; [destruct W|]. destruct W as [W7 W]. cbn [f_ty] in W7.
  destruct vs as [|a8 vs]; [destruct W|]. destruct W as [W8 W]. cbn [f_ty] in W8.
  destruct vs as [|a9 vs]; [destruct W|]. destruct W as [W9 W]. cbn [f_ty] in W9.
  destruct vs as [|a10 vs]; [destruct W|]. destruct W as [W10 W]. cbn [f_ty] in W10.
  destruct vs as [|a11 vs]; [destruct W|]. destruct W as [W11 W]. cbn [f_ty] in W11.
  destruct vs as [|a12 vs]; [destruct W|]. destruct W as [W12 W]. cbn [f_ty] in W12.
  destruct vs as [|a13 vs]; [destruct W|]. destruct W as [W13 W]. cbn [f_ty] in W13.
  destruct vs as [|a14 vs]; [destruct W|]. destruct W as [W14 W]. cbn [f_ty] in W14.
  destruct vs as [|a15 vs]; [destruct W|]. destruct W as [W15 W]. cbn [f_ty] in W15.
  destruct vs as [|a16 vs]; [destruct W|]. destruct W as [W16 W]. cbn [f_ty] in W16.
  destruct vs as [|a17 vs]; [destruct W|]. destruct W as [W17 W]. cbn [f_ty] in W17.
  destruct vs as [|a18 vs]; [destruct W|]. destruct W as [W18 W]. cbn [f_ty] in W18.
  destruct vs as [|a19 vs]; [destruct W|]. destruct W as [W19 W]. cbn [f_ty] in W19.
  destruct vs as [|a20 vs]; [destruct W|]. destruct W as [W20 W]. cbn [f_ty] in W20.
  destruct vs as [|? ?]; [clear W|destruct W].
  cbn [reflect_Vulnerability]. unfold reify_Vulnerability. cbn [Vulnerability_BOMRef Vulnerability_ID Vulnerability_Source Vulnerability_References Vulnerability_Ratings Vulnerability_CWEs Vulnerability_Description Vulnerability_Detail Vulnerability_Recommendation Vulnerability_Workaround Vulnerability_ProofOfConcept Vulnerability_Advisories Vulnerability_Created Vulnerability_Published Vulnerability_Updated Vulnerability_Rejected Vulnerability_Credits Vulnerability_Tools Vulnerability_Analysis Vulnerability_Affects Vulnerability_Properties]. fields_back.
  - match goal with |- ?f (?g ?v) = _ => match type of W0 with wt ?t _ => exact ((ltac:(auto 8 with reify) : vni t f g) v W0) end end.
  - match goal with |- ?f (?g ?v) = _ => match type of W1 with wt ?t _ => exact ((ltac:(auto 8 with reify) : vni t f g) v W1) end end.
  - match goal with |- ?f (?g ?v) = _ => match type of W2 with wt ?t _ => exact ((ltac:(auto 8 with reify) : vni t f g) v W2) end end.
  - match goal with |- ?f (?g ?v) = _ => match type of W3 with wt ?t _ => exact ((ltac:(auto 8 with reify) : vni t f g) v W3) end end.
  - match goal with |- ?f (?g ?v) = _ => match type of W4 with wt ?t _ => exact ((ltac:(auto 8 with reify) : vni t f g) v W4) end end.
  - match goal with |- ?f (?g ?v) = _ => match type of W5 with wt ?t _ => exact ((ltac:(auto 8 with reify) : vni t f g) v W5) end end.
  - match goal with |- ?f (?g ?v) = _ => match type of W6 with wt ?t _ => exact ((ltac:(auto 8 with reify) : vni t f g) v W6) end end.
  - match goal with |- ?f (?g ?v) = _ => match type of W7 with wt ?t _ => exact ((ltac:(auto 8 with reify) : vni t f g) v W7) end end.
  - match goal with |- ?f (?g ?v) = _ => match type of W8 with wt ?t _ => exact ((ltac:(auto 8 with reify) : vni t f g) v W8) end end.
  - match goal with |- ?f (?g ?v) = _ => match type of W9 with wt ?t _ => exact ((ltac:(auto 8 with reify) : vni t f g) v W9) end end.
  - match goal with |- ?f (?g ?v) = _ => match type of W10 with wt ?t _ => exact ((ltac:(auto 8 with reify) : vni t f g) v W10) end end.
  - match goal with |- ?f (?g ?v) = _ => match type of W11 with wt ?t _ => exact ((ltac:(auto 8 with reify) : vni t f g) v W11) end end.
  - match goal with |- ?f (?g ?v) = _ => match type of W12 with wt ?t _ => exact ((ltac:(auto 8 with reify) : vni t f g) v W12) end end.
  - match goal with |- ?f (?g ?v) = _ => match type of W13 with wt ?t _ => exact ((ltac:(auto 8 with reify) : vni t f g) v W13) end end.
  - match goal with |- ?f (?g ?v) = _ => match type of W14 with wt ?t _ => exact ((ltac:(auto 8 with reify) : vni t f g) v W14) end end.
  - match goal with |- ?f (?g ?v) = _ => match type of W15 with wt ?t _ => exact ((ltac:(auto 8 with reify) : vni t f g) v W15) end end.
  - match goal with |- ?f (?g ?v) = _ => match type of W16 with wt ?t _ => exact ((ltac:(auto 8 with reify) : vni t f g) v W16) end end.
  - match goal with |- ?f (?g ?v) = _ => match type of W17 with wt ?t _ => exact ((ltac:(auto 8 with reify) : vni t f g) v W17) end end.
  - match goal with |- ?f (?g ?v) = _ => match type of W18 with wt ?t _ => exact ((ltac:(auto 8 with reify) : vni t f g) v W18) end end.
  - match goal with |- ?f (?g ?v) = _ => match type of W19 with wt ?t _ => exact ((ltac:(auto 8 with reify) : vni t f g) v W19) end end.
  - match goal with |- ?f (?g ?v) = _ => match type of W20 with wt ?t _ => exact ((ltac:(auto 8 with reify) : vni t f g) v W20) end end.
Qed.
#[export] Hint Resolve inv_Vulnerability typed_Vulnerability vni_Vulnerability : reify.

Lemma kind_ResourceReferenceChoice : kind_of (TRef "ResourceReferenceChoice") = KStruct fields_ResourceReferenceChoice. Proof. reflexivity. Qed.
Lemma wt_ResourceReferenceChoice_inv v : wt (TRef "ResourceReferenceChoice") v -> exists vs, v = VStruct vs /\ zip_all (fun f x => wt (f_ty f) x) vs fields_ResourceReferenceChoice.
Proof.
  intros W. destruct v; cbn [wt] in W; rewrite kind_ResourceReferenceChoice in W; try discriminate; try contradiction. eauto.
Qed.
Lemma inv_ResourceReferenceChoice : inv reify_ResourceReferenceChoice reflect_ResourceReferenceChoice.
Proof. intros x; unfold reify_ResourceReferenceChoice; cbn [reflect_ResourceReferenceChoice]; rr; destruct x; reflexivity. Qed.
Lemma typed_ResourceReferenceChoice : typed (TRef "ResourceReferenceChoice") reify_ResourceReferenceChoice.
Proof.
  intros x; unfold reify_ResourceReferenceChoice; cbn [wt]; rewrite kind_ResourceReferenceChoice; unfold fields_ResourceReferenceChoice; cbn [zip_all f_ty]; fields_typed;
    match goal with |- wt ?t (?f ?x) => apply (ltac:(auto 8 with reify) : typed t f) end.
Qed.
Lemma vni_ResourceReferenceChoice : vni (TRef "ResourceReferenceChoice") reify_ResourceReferenceChoice reflect_ResourceReferenceChoice.
Proof.
  intros v W.
  apply wt_ResourceReferenceChoice_inv in W as (vs & -> & W). unfold fields_ResourceReferenceChoice in W.
  destruct vs as [|a0 vs]; [destruct W|]. destruct W as [W0 W]. cbn [f_ty] in W0.
  destruct vs as [|a1 vs]; [destruct W|]. destruct W as [W1 W]. cbn [f_ty] in W1.
  destruct vs as [|? ?]; [clear W|destruct W].
  cbn [reflect_ResourceReferenceChoice]. unfold reify_ResourceReferenceChoice. cbn [ResourceReferenceChoice_Ref ResourceReferenceChoice_ExternalReference]. fields_back.
  - match goal with |- ?f (?g ?v) = _ => match type of W0 with wt ?t _ => exact ((ltac:(auto 8 with reify) : vni t f g) v W0) end end.
  - match goal with |- ?f (?g ?v) = _ => match type of W1 with wt ?t _ => exact ((ltac:(auto 8 with reify) : vni t f g) v W1) end end.
Qed.
#[export] Hint Resolve inv_ResourceReferenceChoice typed_ResourceReferenceChoice vni_ResourceReferenceChoice : reify.

Lemma kind_Event : kind_of (TRef "Event") = KStruct fields_Event. Proof. reflexivity. Qed.
Lemma wt_Event_inv v : wt (TRef "Event") v -> exists vs, v = VStruct vs /\ zip_all (fun f x => wt (f_ty f) x) vs fields_Event.
Proof.
  intros W. destruct v; cbn [wt] in W; rewrite kind_Event in W; try discriminate; try contradiction. eauto.
Qed.
Lemma inv_Event : inv reify_Event reflect_Event.
Proof. intros x; unfold reify_Event; cbn [reflect_Event]; rr; destruct x; reflexivity. Qed.
Lemma typed_Event : typed (TRef "Event") reify_Event.
Proof.
  intros x; unfold reify_Event; cbn [wt]; rewrite kind_Event; unfold fields_Event; cbn [zip_all f_ty]; fields_typed;
    match goal with |- wt ?t (?f ?x) => apply (ltac:(auto 8 with reify) : typed t f) end.
Qed.
Lemma vni_Event : vni (TRef "Event") reify_Event reflect_Event.
Proof.
  intros v W.
  apply wt_Event_inv in W as (vs & -> & W). unfold fields_Event in W.
  destruct vs as [|a0 vs]; [destruct W|]. destruct W as [W0 W]. cbn [f_ty] in W0.
  destruct vs as [|a1 vs]; [destruct W|]. destruct W as [W1 W]. cbn [f_ty] in W1.
  destruct vs as [|a2 vs]; [destruct W|]. destruct W as [W2 W]. cbn [f_ty] in W2.
  destruct vs as [|a3 vs]; [destruct W|]. destruct W as [W3 W]. cbn [f_ty] in W3.
  destruct vs as [|a4 vs]; [destruct W|]. destruct W as [W4 W]. cbn [f_ty] in W4.
  destruct vs as [|a5 vs]; [destruct W|]. destruct W as [W5 W]. cbn [f_ty] in W5.
  destruct vs as [|a6 vs]; [destruct W|]. destruct W as [W6 W]. cbn [f_ty] in W6.
  destruct vs as [|? ?]; [clear W|destruct W].
  cbn [reflect_Event]. unfold reify_Event. cbn [Event_UID Event_Description Event_TimeReceived Event_Data Event_Source Event_Target Event_Properties]. fields_back.
  - match goal with |- ?f (?g ?v) = _ => match type of W0 with wt ?t _ => exact ((ltac:(auto 8 with reify) : vni t f g) v W0) end end.
  - match goal with |- ?f (?g ?v) = _ => match type of W1 with wt ?t _ => exact ((ltac:(auto 8 with reify) : vni t f g) v W1) end end.
  - match goal with |- ?f (?g ?v) = _ => match type of W2 with wt ?t _ => exact ((ltac:(auto 8 with reify) : vni t f g) v W2) end end.
  - match goal with |- ?f (?g ?v) = _ => match type of W3 with wt ?t _ => exact ((ltac:(auto 8 with reify) : vni t f g) v W3) end end.
  - match goal with |- ?f (?g ?v) = _ => match type of W4 with wt ?t _ => exact ((ltac:(auto 8 with reify) : vni t f g) v W4) end end.
  - match goal with |- ?f (?g ?v) = _ => match type of W5 with wt ?t _ => exact ((ltac:(auto 8 with reify) : vni t f g) v W5) end end.
  - match goal with |- ?f (?g ?v) = _ => match type of W6 with wt ?t _ => exact ((ltac:(auto 8 with reify) : vni t f g) v W6) end end.
Qed.
#[export] Hint Resolve inv_Event typed_Event vni_Event : reify.

Lemma kind_TaskTriggerCondition : kind_of (TRef "TaskTriggerCondition") = KStruct fields_TaskTriggerCondition. Proof. reflexivity. Qed.
Lemma wt_TaskTriggerCondition_inv v : wt (TRef "TaskTriggerCondition") v -> exists vs, v = VStruct vs /\ zip_all (fun f x => wt (f_ty f) x) vs fields_TaskTriggerCondition.
Proof.
  intros W. destruct v; cbn [wt] in W; rewrite kind_TaskTriggerCondition in W; try discriminate; try contradiction. eauto.
Qed.
Lemma inv_TaskTriggerCondition : inv reify_TaskTriggerCondition reflect_TaskTriggerCondition.
Proof. intros x; unfold reify_TaskTriggerCondition; cbn [reflect_TaskTriggerCondition]; rr; destruct x; reflexivity. Qed.
Lemma typed_TaskTriggerCondition : typed (TRef "TaskTriggerCondition") reify_TaskTriggerCondition.
Proof.
  intros x; unfold reify_TaskTriggerCondition; cbn [wt]; rewrite kind_TaskTriggerCondition; unfold fields_TaskTriggerCondition; cbn [zip_all f_ty]; fields_typed;
    match goal with |- wt ?t (?f ?x) => apply (ltac:(auto 8 with reify) : typed t f) end.
Qed.
Lemma vni_TaskTriggerCondition : vni (TRef "TaskTriggerCondition") reify_TaskTriggerCondition reflect_TaskTriggerCondition.
Proof.
  intros v W.
  apply wt_TaskTriggerCondition_inv in W as (vs & -> & W). unfold fields_TaskTriggerCondition in W.
  destruct vs as [|a0 vs]; [destruct W|]. destruct W as [W0 W]. cbn [f_ty] in W0.
  destruct vs as [|a1 vs]; [destruct W|]. destruct W as [W1 W]. cbn [f_ty] in W1.
  destruct vs as [|a2 vs]; [destruct W|]. destruct W as [W2 W]. cbn [f_ty] in W2.
  destruct vs as [|? ?]; [clear W|destruct W].
  cbn [reflect_TaskTriggerCondition]. unfold reify_TaskTriggerCondition. cbn [TaskTriggerCondition_Description TaskTriggerCondition_Expression TaskTriggerCondition_Properties]. fields_back.
  - match goal with |- ?f (?g ?v) = _ => match type of W0 with wt ?t _ => exact ((ltac:(auto 8 with reify) : vni t f g) v W0) end end.
  - match goal with |- ?f (?g ?v) = _ => match type of W1 with wt ?t _ => exact ((ltac:(auto 8 with reify) : vni t f g) v W1) end end.
  - match goal with |- ?f (?g ?v) = _ => match type of W2 with wt ?t _ => exact ((ltac:(auto 8 with reify) : vni t f g) v W2) end end.
Qed.
#[export] Hint Resolve inv_TaskTriggerCondition typed_TaskTriggerCondition vni_TaskTriggerCondition : reify.

Lemma kind_Parameter_t : kind_of (TRef "Parameter") = KStruct fields_Parameter_t. Proof. reflexivity. Qed.
Lemma wt_Parameter_t_inv v : wt (TRef "Parameter") v -> exists vs, v = VStruct vs /\ zip_all (fun f x => wt (f_ty f) x) vs fields_Parameter_t.
Proof.
  intros W. destruct v; cbn [wt] in W; rewrite kind_Parameter_t in W; try discriminate; try contradiction. eauto.
Qed.
Lemma inv_Parameter_t : inv reify_Parameter_t reflect_Parameter_t.
Proof. intros x; unfold reify_Parameter_t; cbn [reflect_Parameter_t]; rr; destruct x; reflexivity. Qed.
Lemma typed_Parameter_t : typed (TRef "Parameter") reify_Parameter_t.
Proof.
  intros x; unfold reify_Parameter_t; cbn [wt]; rewrite kind_Parameter_t; unfold fields_Parameter_t; cbn [zip_all f_ty]; fields_typed;
    match goal with |- wt ?t (?f ?x) => apply (ltac:(auto 8 with reify) : typed t f) end.
Qed.
Lemma vni_Parameter_t : vni (TRef "Parameter") reify_Parameter_t reflect_Parameter_t.
Proof.
  intros v W.
  apply wt_Parameter_t_inv in W as (vs & -> & W). unfold fields_Parameter_t in W.
  destruct vs as [|a0 vs]; [destruct W|]. destruct W as [W0 W]. cbn [f_ty] in W0.
  destruct vs as [|a1 vs]; [destruct W|]. destruct W as [W1 W]. cbn [f_ty] in W1.
  destruct vs as [|a2 vs]; [destruct W|]. destruct W as [W2 W]. cbn [f_ty] in W2.
  destruct vs as [|? ?]; [clear W|destruct W].
  cbn [reflect_Parameter_t]. unfold reify_Parameter_t. cbn [Parameter_t_Name Parameter_t_Value Parameter_t_DataType]. fields_back.
  - match goal with |- ?f (?g ?v) = _ => match type of W0 with wt ?t _ => exact ((ltac:(auto 8 with reify) : vni t f g) v W0) end end.
  - match goal with |- ?f (?g ?v) = _ => match type of W1 with wt ?t _ => exact ((ltac:(auto 8 with reify) : vni t f g) v W1) end end.
  - match goal with |- ?f (?g ?v) = _ => match type of W2 with wt ?t _ => exact ((ltac:(auto 8 with reify) : vni t f g) v W2) end end.
Qed.
#[export] Hint Resolve inv_Parameter_t typed_Parameter_t vni_Parameter_t : reify.

Lemma kind_TaskInput : kind_of (TRef "TaskInput") = KStruct fields_TaskInput. Proof. reflexivity. Qed.
Lemma wt_TaskInput_inv v : wt (TRef "TaskInput") v -> exists vs, v = VStruct vs /\ zip_all (fun f x => wt (f_ty f) x) vs fields_TaskInput.
Proof.
  intros W. destruct v; cbn [wt] in W; rewrite kind_TaskInput in W; try discriminate; try contradiction. eauto.
Qed.
Lemma inv_TaskInput : inv reify_TaskInput reflect_TaskInput.
Proof. intros x; unfold reify_TaskInput; cbn [reflect_TaskInput]; rr; destruct x; reflexivity. Qed.
Lemma typed_TaskInput : typed (TRef "TaskInput") reify_TaskInput.
Proof.
  intros x; unfold reify_TaskInput; cbn [wt]; rewrite kind_TaskInput; unfold fields_TaskInput; cbn [zip_all f_ty]; fields_typed;
    match goal with |- wt ?t (?f ?x) => apply (ltac:(auto 8 with reify) : typed t f) end.
Qed.
Lemma vni_TaskInput : vni (TRef "TaskInput") reify_TaskInput reflect_TaskInput.
Proof.
  intros v W.
  apply wt_TaskInput_inv in W as (vs & -> & W). unfold fields_TaskInput in W.
  destruct vs as [|a0 vs]; [destruct W|]. destruct W as [W0 W]. cbn [f_ty] in W0.
  destruct vs as [|a1 vs]; [destruct W|]. destruct W as [W1 W]. cbn [f_ty] in W1.
  destruct vs as [|a2 vs]; [destruct W|]. destruct W as [W2 W]. cbn [f_ty] in W2.
  destruct vs as [|a3 vs]; [destruct W|]. destruct W as [W3 W]. cbn [f_ty] in W3.
  destruct vs as [|a4 vs]; [destruct W|]. destruct W as [W4 W]. cbn [f_ty] in W4.
  destruct vs as [|a5 vs]; [destruct W|]. destruct W as [W5 W]. cbn [f_ty] in W5.
  destruct vs as [|a6 vs]; [destruct W|]. destruct W as [W6 W]. cbn [f_ty] in W6.
  destruct vs as [|? ?]; [clear W|destruct W].
  cbn [reflect_TaskInput]. unfold reify_TaskInput. cbn [TaskInput_Resource TaskInput_Parameters TaskInput_EnvironmentVars TaskInput_Data TaskInput_Source TaskInput_Target TaskInput_Properties]. fields_back.
  - match goal with |- ?f (?g ?v) = _ => match type of W0 with wt ?t _ => exact ((ltac:(auto 8 with reify) : vni t f g) v W0) end end.
  - match goal with |- ?f (?g ?v) = _ => match type of W1 with wt ?t _ => exact ((ltac:(auto 8 with reify) : vni t f g) v W1) end end.
  - match goal with |- ?f (?g ?v) = _ => match type of W2 with wt ?t _ => exact ((ltac:(auto 8 with reify) : vni t f g) v W2) end end.
  - match goal with |- ?f (?g ?v) = _ => match type of W3 with wt ?t _ => exact ((ltac:(auto 8 with reify) : vni t f g) v W3) end end.
  - match goal with |- ?f (?g ?v) = _ => match type of W4 with wt ?t _ => exact ((ltac:(auto 8 with reify) : vni t f g) v W4) end end.
  - match goal with |- ?f (?g ?v) = _ => match type of W5 with wt ?t _ => exact ((ltac:(auto 8 with reify) : vni t f g) v W5) end end.
  - match goal with |- ?f (?g ?v) = _ => match type of W6 with wt ?t _ => exact ((ltac:(auto 8 with reify) : vni t f g) v W6) end end.
Qed.
#[export] Hint Resolve inv_TaskInput typed_TaskInput vni_TaskInput : reify.

Lemma kind_TaskOutput : kind_of (TRef "TaskOutput") = KStruct fields_TaskOutput. Proof. reflexivity. Qed.
Lemma wt_TaskOutput_inv v : wt (TRef "TaskOutput") v -> exists vs, v = VStruct vs /\ zip_all (fun f x => wt (f_ty f) x) vs fields_TaskOutput.
Proof.
  intros W. destruct v; cbn [wt] in W; rewrite kind_TaskOutput in W; try discriminate; try contradiction. eauto.
Qed.
Lemma inv_TaskOutput : inv reify_TaskOutput reflect_TaskOutput.
Proof. intros x; unfold reify_TaskOutput; cbn [reflect_TaskOutput]; rr; destruct x; reflexivity. Qed.
Lemma typed_TaskOutput : typed (TRef "TaskOutput") reify_TaskOutput.
Proof.
  intros x; unfold reify_TaskOutput; cbn [wt]; rewrite kind_TaskOutput; unfold fields_TaskOutput; cbn [zip_all f_ty]; fields_typed;
    match goal with |- wt ?t (?f ?x) => apply (ltac:(auto 8 with reify) : typed t f) end.
Qed.
Lemma vni_TaskOutput : vni (TRef "TaskOutput") reify_TaskOutput reflect_TaskOutput.
Proof.
  intros v W.
  apply wt_TaskOutput_inv in W as (vs & -> & W). unfold fields_TaskOutput in W.
  destruct vs as [|a0 vs]; [destruct W|]. destruct W as [W0 W]. cbn [f_ty] in W0.
  destruct vs as [|a1 vs]; [destruct W|]. destruct W as [W1 W]. cbn [f_ty] in W1.
  destruct vs as [|a2 vs]; [destruct W|]. destruct W as [W2 W]. cbn [f_ty] in W2.
  destruct vs as [|a3 vs]; [destruct W|]. destruct W as [W3 W]. cbn [f_ty] in W3.
  destruct vs as [|a4 vs]; [destruct W|]. destruct W as [W4 W]. cbn [f_ty] in W4.
  destruct vs as [|a5 vs]; [destruct W|]. destruct W as [W5 W]. cbn [f_ty] in W5.
  destruct vs as [|a6 vs]; [destruct W|]. destruct W as [W6 W]. cbn [f_ty] in W6.
  destruct vs as [|a7 vs]; [destruct W|]. destruct W as [W7 W]. cbn [f_ty] in W7.
  destruct vs as [|? ?]; [clear W|destruct W].
  cbn [reflect_TaskOutput]. unfold reify_TaskOutput. cbn [TaskOutput_Resource TaskOutput_Parameters TaskOutput_EnvironmentVars TaskOutput_Data TaskOutput_Type TaskOutput_Source TaskOutput_Target TaskOutput_Properties]. fields_back.
  - match goal with |- ?f (?g ?v) = _ => match type of W0 with wt ?t _ => exact ((ltac:(auto 8 with reify) : vni t f g) v W0) end end.
  - match goal with |- ?f (?g ?v) = _ => match type of W1 with wt ?t _ => exact ((ltac:(auto 8 with reify) : vni t f g) v W1) end end.
  - match goal with |- ?f (?g ?v) = _ => match type of W2 with wt ?t _ => exact ((ltac:(auto 8 with reify) : vni t f g) v W2) end end.
  - match goal with |- ?f (?g ?v) = _ => match type of W3 with wt ?t _ => exact ((ltac:(auto 8 with reify) : vni t f g) v W3) end end.
  - match goal with |- ?f (?g ?v) = _ => match type of W4 with wt ?t _ => exact ((ltac:(auto 8 with reify) : vni t f g) v W4) end end.
  - match goal with |- ?f (?g ?v) = _ => match type of W5 with wt ?t _ => exact ((ltac:(auto 8 with reify) : vni t f g) v W5) end end.
  - match goal with |- ?f (?g ?v) = _ => match type of W6 with wt ?t _ => exact ((ltac:(auto 8 with reify) : vni t f g) v W6) end end.
  - match goal with |- ?f (?g ?v) = _ => match type of W7 with wt ?t _ => exact ((ltac:(auto 8 with reify) : vni t f g) v W7) end end.
Qed.
#[export] Hint Resolve inv_TaskOutput typed_TaskOutput vni_TaskOutput : reify.

Lemma kind_TaskTrigger : kind_of (TRef "TaskTrigger") = KStruct fields_TaskTrigger. Proof. reflexivity. Qed.
Lemma wt_TaskTrigger_inv v : wt (TRef "TaskTrigger") v -> exists vs, v = VStruct vs /\ zip_all (fun f x => wt (f_ty f) x) vs fields_TaskTrigger.
Proof.
  intros W. destruct v; cbn [wt] in W; rewrite kind_TaskTrigger in W; try discriminate; try contradiction. eauto.
Qed.
Lemma inv_TaskTrigger : inv reify_TaskTrigger reflect_TaskTrigger.
Proof. intros x; unfold reify_TaskTrigger; cbn [reflect_TaskTrigger]; rr; destruct x; reflexivity. Qed.
Lemma typed_TaskTrigger : typed (TRef "TaskTrigger") reify_TaskTrigger.
Proof.
  intros x; unfold reify_TaskTrigger; cbn [wt]; rewrite kind_TaskTrigger; unfold fields_TaskTrigger; cbn [zip_all f_ty]; fields_typed;
    match goal with |- wt ?t (?f ?x) => apply (ltac:(auto 8 with reify) : typed t f) end.
Qed.
Lemma vni_TaskTrigger : vni (TRef "TaskTrigger") reify_TaskTrigger reflect_TaskTrigger.
Proof.
  intros v W.
  apply wt_TaskTrigger_inv in W as (vs & -> & W). unfold fields_TaskTrigger in W.
  destruct vs as [|a0 vs]; [destruct W|]. destruct W as [W0 W]. cbn [f_ty] in W0.
  destruct vs as [|a1 vs]; [destruct W|]. destruct W as [W1 W]. cbn [f_ty] in W1.
  destruct vs as [|a2 vs]; [destruct W|]. destruct W as [W2 W]. cbn [f_ty] in W2.
  destruct vs as [|a3 vs]; [destruct W|]. destruct W as [W3 W]. cbn [f_ty] in W3.
  destruct vs as [|a4 vs]; [destruct W|]. destruct W as [W4 W]. cbn [f_ty] in W4.
  destruct vs as [|a5 vs]; [destruct W|]. destruct W as [W5 W]. cbn [f_ty] in W5.
  destruct vs as [|a6 vs]; [destruct W|]. destruct W as [W6 W]. cbn [f_ty] in W6.
  destruct vs as [|a7 vs]; [destruct W|]. destruct W as [W7 W]. cbn [f_ty] in W7.
  destruct vs as [|a8 vs]; [destruct W|]. destruct W as [W8 W]. cbn [f_ty] in W8.
  destruct vs as [|a9 vs]; [destruct W|]. destruct W as [W9 W]. cbn [f_ty] in W9.
  destruct vs as [|a10 vs]; [destruct W|]. destruct W as [W10 W]. cbn [f_ty] in W10.
  destruct vs as [|a11 vs]; [destruct W|]. destruct W as [W11 W]. cbn [f_ty] in W11.
  destruct vs as [|? ?]; [clear W|destruct W].
  cbn [reflect_TaskTrigger]. unfold reify_TaskTrigger. cbn [TaskTrigger_BOMRef TaskTrigger_UID TaskTrigger_Name TaskTrigger_Description TaskTrigger_ResourceReferences TaskTrigger_Type TaskTrigger_Event TaskTrigger_Conditions TaskTrigger_TimeActivated TaskTrigger_Inputs TaskTrigger_Outputs TaskTrigger_Properties]. fields_back.
  - match goal with |- ?f (?g ?v) = _ => match type of W0 with wt ?t _ => exact ((ltac:(auto 8 with reify) : vni t f g) v W0) end end.
  - match goal with |- ?f (?g ?v) = _ => match type of W1 with wt ?t _ => exact ((ltac:(auto 8 with reify) : vni t f g) v W1) end end.
  - match goal with |- ?f (?g ?v) = _ => match type of W2 with wt ?t _ => exact ((ltac:(auto 8 with reify) : vni t f g) v W2) end end.
  - match goal with |- ?f (?g ?v) = _ => match type of W3 with wt ?t _ => exact ((ltac:(auto 8 with reify) : vni t f g) v W3) end end.
  - match goal with |- ?f (?g ?v) = _ => match type of W4 with wt ?t _ => exact ((ltac:(auto 8 with reify) : vni t f g) v W4) end end.
  - match goal with |- ?f (?g ?v) = _ => match type of W5 with wt ?t _ => exact ((ltac:(auto 8 with reify) : vni t f g) v W5) end end.
  - match goal with |- ?f (?g ?v) = _ => match type of W6 with wt ?t _ => exact ((ltac:(auto 8 with reify) : vni t f g) v W6) end end.
  - match goal with |- ?f (?g ?v) = _ => match type of W7 with wt ?t _ => exact ((ltac:(auto 8 with reify) : vni t f g) v W7) end end.
  - match goal with |- ?f (?g ?v) = _ => match type of W8 with wt ?t _ => exact ((ltac:(auto 8 with reify) : vni t f g) v W8) end end.
  - match goal with |- ?f (?g ?v) = _ => match type of W9 with wt ?t _ => exact ((ltac:(auto 8 with reify) : vni t f g) v W9) end end.
  - match goal with |- ?f (?g ?v) = _ => match type of W10 with wt ?t _ => exact ((ltac:(auto 8 with reify) : vni t f g) v W10) end end.
  - match goal with |- ?f (?g ?v) = _ => match type of W11 with wt ?t _ => exact ((ltac:(auto 8 with reify) : vni t f g) v W11) end end.
Qed.
#[export] Hint Resolve inv_TaskTrigger typed_TaskTrigger vni_TaskTrigger : reify.

Lemma kind_TaskCommand : kind_of (TRef "TaskCommand") = KStruct fields_TaskCommand. Proof. reflexivity. Qed.
Lemma wt_TaskCommand_inv v : wt (TRef "TaskCommand") v -> exists vs, v = VStruct vs /\ zip_all (fun f x => wt (f_ty f) x) vs fields_TaskCommand.
Proof.
  intros W. destruct v; cbn [wt] in W; rewrite kind_TaskCommand in W; try discriminate; try contradiction. eauto.
Qed.
Lemma inv_TaskCommand : inv reify_TaskCommand reflect_TaskCommand.
Proof. intros x; unfold reify_TaskCommand; cbn [reflect_TaskCommand]; rr; destruct x; reflexivity. Qed.
Lemma typed_TaskCommand : typed (TRef "TaskCommand") reify_TaskCommand.
Proof.
  intros x; unfold reify_TaskCommand; cbn [wt]; rewrite kind_TaskCommand; unfold fields_TaskCommand; cbn [zip_all f_ty]; fields_typed;
    match goal with |- wt ?t (?f ?x) => apply (ltac:(auto 8 with reify) : typed t f) end.
Qed.
Lemma vni_TaskCommand : vni (TRef "TaskCommand") reify_TaskCommand reflect_TaskCommand.
Proof.
  intros v W.
  apply wt_TaskCommand_inv in W as (vs & -> & W). unfold fields_TaskCommand in W.
  destruct vs as [|a0 vs]; [destruct W|]. destruct W as [W0 W]. cbn [f_ty] in W0.
  destruct vs as [|a1 vs]; [destruct W|]. destruct W as [W1 W]. cbn [f_ty] in W1.
  destruct vs as [|? ?]; [clear W|destruct W].
  cbn [reflect_TaskCommand]. unfold reify_TaskCommand. cbn [TaskCommand_Executed TaskCommand_Properties]. fields_back.
  - match goal with |- ?f (?g ?v) = _ => match type of W0 with wt ?t _ => exact ((ltac:(auto 8 with reify) : vni t f g) v W0) end end.
  - match goal with |- ?f (?g ?v) = _ => match type of W1 with wt ?t _ => exact ((ltac:(auto 8 with reify) : vni t f g) v W1) end end.
Qed.
#[export] Hint Resolve inv_TaskCommand typed_TaskCommand vni_TaskCommand : reify.

Lemma kind_TaskStep : kind_of (TRef "TaskStep") = KStruct fields_TaskStep. Proof. reflexivity. Qed.
Lemma wt_TaskStep_inv v : wt (TRef "TaskStep") v -> exists vs, v = VStruct vs /\ zip_all (fun f x => wt (f_ty f) x) vs fields_TaskStep.
Proof.
  intros W. destruct v; cbn [wt] in W; rewrite kind_TaskStep in W; try discriminate; try contradiction. eauto.
Qed.
Lemma inv_TaskStep : inv reify_TaskStep reflect_TaskStep.
Proof. intros x; unfold reify_TaskStep; cbn [reflect_TaskStep]; rr; destruct x; reflexivity. Qed.
Lemma typed_TaskStep : typed (TRef "TaskStep") reify_TaskStep.
Proof.
  intros x; unfold reify_TaskStep; cbn [wt]; rewrite kind_TaskStep; unfold fields_TaskStep; cbn [zip_all f_ty]; fields_typed;
    match goal with |- wt ?t (?f ?x) => apply (ltac:(auto 8 with reify) : typed t f) end.
Qed.
Lemma vni_TaskStep : vni (TRef "TaskStep") reify_TaskStep reflect_TaskStep.
Proof.
  intros v W.
  apply wt_TaskStep_inv in W as (vs & -> & W). unfold fields_TaskStep in W.
  destruct vs as [|a0 vs]; [destruct W|]. destruct W as [W0 W]. cbn [f_ty] in W0.
  destruct vs as [|a1 vs]; [destruct W|]. destruct W as [W1 W]. cbn [f_ty] in W1.
  destruct vs as [|a2 vs]; [destruct W|]. destruct W as [W2 W]. cbn [f_ty] in W2.
  destruct vs as [|a3 vs]; [destruct W|]. destruct W as [W3 W]. cbn [f_ty] in W3.
  destruct vs as [|? ?]; [clear W|destruct W].
  cbn [reflect_TaskStep]. unfold reify_TaskStep. cbn [TaskStep_Name TaskStep_Description TaskStep_Commands TaskStep_Properties]. fields_back.
  - match goal with |- ?f (?g ?v) = _ => match type of W0 with wt ?t _ => exact ((ltac:(auto 8 with reify) : vni t f g) v W0) end end.
  - match goal with |- ?f (?g ?v) = _ => match type of W1 with wt ?t _ => exact ((ltac:(auto 8 with reify) : vni t f g) v W1) end end.
  - match goal with |- ?f (?g ?v) = _ => match type of W2 with wt ?t _ => exact ((ltac:(auto 8 with reify) : vni t f g) v W2) end end.
  - match goal with |- ?f (?g ?v) = _ => match type of W3 with wt ?t _ => exact ((ltac:(auto 8 with reify) : vni t f g) v W3) end end.
Qed.
#[export] Hint Resolve inv_TaskStep typed_TaskStep vni_TaskStep : reify.

Lemma kind_Volume : kind_of (TRef "Volume") = KStruct fields_Volume. Proof. reflexivity. Qed.
Lemma wt_Volume_inv v : wt (TRef "Volume") v -> exists vs, v = VStruct vs /\ zip_all (fun f x => wt (f_ty f) x) vs fields_Volume.
Proof.
  intros W. destruct v; cbn [wt] in W; rewrite kind_Volume in W; try discriminate; try contradiction. eauto.
Qed.
Lemma inv_Volume : inv reify_Volume reflect_Volume.
Proof. intros x; unfold reify_Volume; cbn [reflect_Volume]; rr; destruct x; reflexivity. Qed.
Lemma typed_Volume : typed (TRef "Volume") reify_Volume.
Proof.
  intros x; unfold reify_Volume; cbn [wt]; rewrite kind_Volume; unfold fields_Volume; cbn [zip_all f_ty]; fields_typed;
    match goal with |- wt ?t (?f ?x) => apply (ltac:(auto 8 with reify) : typed t f) end.
Qed.
Lemma vni_Volume : vni (TRef "Volume") reify_Volume reflect_Volume.
Proof.
  intros v W.
  apply wt_Volume_inv in W as (vs & -> & W). unfold fields_Volume in W.
  destruct vs as [|a0 vs]; [destruct W|]. destruct W as [W0 W]. cbn [f_ty] in W0.
  destruct vs as [|a1 vs]; [destruct W|]. destruct W as [W1 W]. cbn [f_ty] in W1.
  destruct vs as [|a2 vs]; [destruct W|]. destruct W as [W2 W]. cbn [f_ty] in W2.
  destruct vs as [|a3 vs]; [destruct W|]. destruct W as [W3 W]. cbn [f_ty] in W3.
  destruct vs as [|a4 vs]; [destruct W|]. destruct W as [W4 W]. cbn [f_ty] in W4.
  destruct vs as [|a5 vs]; [destruct W|]. destruct W as [W5 W]. cbn [f_ty] in W5.
  destruct vs as [|a6 vs]; [destruct W|]. destruct W as [W6 W]. cbn [f_ty] in W6.
  destruct vs as [|a7 vs]; [destruct W|]. destruct W as [W7 W]. cbn [f_ty] in W7.
  destruct vs as [|? ?]; [clear W|destruct W].
  cbn [reflect_Volume]. unfold reify_Volume. cbn [Volume_UID Volume_Name Volume_Mode Volume_Path Volume_SizeAllocated Volume_Persistent Volume_Remote Volume_Properties]. fields_back.
  - match goal with |- ?f (?g ?v) = _ => match type of W0 with wt ?t _ => exact ((ltac:(auto 8 with reify) : vni t f g) v W0) end end.
  - match goal with |- ?f (?g ?v) = _ => match type of W1 with wt ?t _ => exact ((ltac:(auto 8 with reify) : vni t f g) v W1) end end.
  - match goal with |- ?f (?g ?v) = _ => match type of W2 with wt ?t _ => exact ((ltac:(auto 8 with reify) : vni t f g) v W2) end end.
  - match goal with |- ?f (?g ?v) = _ => match type of W3 with wt ?t _ => exact ((ltac:(auto 8 with reify) : vni t f g) v W3) end end.
  - match goal with |- ?f (?g ?v) = _ => match type of W4 with wt ?t _ => exact ((ltac:(auto 8 with reify) : vni t f g) v W4) end end.
  - match goal with |- ?f (?g ?v) = _ => match type of W5 with wt ?t _ => exact ((ltac:(auto 8 with reify) : vni t f g) v W5) end end.
  - match goal with |- ?f (?g ?v) = _ => match type of W6 with wt ?t _ => exact ((ltac:(auto 8 with reify) : vni t f g) v W6) end end.
  - match goal with |- ?f (?g ?v) = _ => match type of W7 with wt ?t _ => exact ((ltac:(auto 8 with reify) : vni t f g) v W7) end end.
Qed.
#[export] Hint Resolve inv_Volume typed_Volume vni_Volume : reify.

Lemma kind_TaskWorkspace : kind_of (TRef "TaskWorkspace") = KStruct fields_TaskWorkspace. Proof. reflexivity. Qed.
Lemma wt_TaskWorkspace_inv v : wt (TRef "TaskWorkspace") v -> exists vs, v = VStruct vs /\ zip_all (fun f x => wt (f_ty f) x) vs fields_TaskWorkspace.
Proof.
  intros W. destruct v; cbn [wt] in W; rewrite kind_TaskWorkspace in W; try discriminate; try contradiction. eauto.
Qed.
Lemma inv_TaskWorkspace : inv reify_TaskWorkspace reflect_TaskWorkspace.
Proof. intros x; unfold reify_TaskWorkspace; cbn [reflect_TaskWorkspace]; rr; destruct x; reflexivity. Qed.
Lemma typed_TaskWorkspace : typed (TRef "TaskWorkspace") reify_TaskWorkspace.
Proof.
  intros x; unfold reify_TaskWorkspace; cbn [wt]; rewrite kind_TaskWorkspace; unfold fields_TaskWorkspace; cbn [zip_all f_ty]; fields_typed;
    match goal with |- wt ?t (?f ?x) => apply (ltac:(auto 8 with reify) : typed t f) end.
Qed.
Lemma vni_TaskWorkspace : vni (TRef "TaskWorkspace") reify_TaskWorkspace reflect_TaskWorkspace.
Proof.
  intros v W.
  apply wt_TaskWorkspace_inv in W as (vs & -> & W). unfold fields_TaskWorkspace in W.
  destruct vs as [|a0 vs]; [destruct W|]. destruct W as [W0 W]. cbn [f_ty] in W0.
  destruct vs as [|a1 vs]; [destruct W|]. destruct W as [W1 W]. cbn [f_ty] in W1.
  destruct vs as [|a2 vs]; [destruct W|]. destruct W as [W2 W]. cbn [f_ty] in W2.
  destruct vs as [|a3 vs]; [destruct W|]. destruct W as [W3 W]. cbn [f_ty] in W3.
  destruct vs as [|a4 vs]; [destruct W|]. destruct W as [W4 W]. cbn [f_ty] in W4.
  destruct vs as [|a5 vs]; [destruct W|]. destruct W as [W5 W]. cbn [f_ty] in W5.
  destruct vs as [|a6 vs]; [destruct W|]. destruct W as [W6 W]. cbn [f_ty] in W6.
  destruct vs as [|a7 vs]; [destruct W|]. destruct W as [W7 W]. cbn [f_ty] in W7.
  destruct vs as [|a8 vs]; [destruct W|]. destruct W as [W8 W]. cbn [f_ty] in W8.
  destruct vs as [|a9 vs]; [destruct W|]. destruct W as [W9 W]. cbn [f_ty] in W9.
  destruct vs as [|a10 vs]; [destruct W|]. destruct W as [W10 W]. cbn [f_ty] in W10.
  destruct vs as [|a11 vs]; [destruct W|]. destruct W as [W11 W]. cbn [f_ty] in W11.
  destruct vs as [|? ?]; [clear W|destruct W].
  cbn [reflect_TaskWorkspace]. unfold reify_TaskWorkspace. cbn [TaskWorkspace_BOMRef TaskWorkspace_UID TaskWorkspace_Name TaskWorkspace_Aliases TaskWorkspace_Description TaskWorkspace_ResourceReferences TaskWorkspace_AccessMode TaskWorkspace_MountPath TaskWorkspace_ManagedDataType TaskWorkspace_VolumeRequest TaskWorkspace_Volume TaskWorkspace_Properties]. fields_back.
  - match goal with |- ?f (?g ?v) = _ => match type of W0 with wt ?t _ => exact ((ltac:(auto 8 with reify) : vni t f g) v W0) end end.
  - match goal with |- ?f (?g ?v) = _ => match type of W1 with wt ?t _ => exact ((ltac:(auto 8 with reify) : vni t f g) v W1) end end.
  - match goal with |- ?f (?g ?v) = _ => match type of W2 with wt ?t _ => exact ((ltac:(auto 8 with reify) : vni t f g) v W2) end end.
  - match goal with |- ?f (?g ?v) = _ => match type of W3 with wt ?t _ => exact ((ltac:(auto 8 with reify) : vni t f g) v W3) end end.
  - match goal with |- ?f (?g ?v) = _ => match type of W4 with wt ?t _ => exact ((ltac:(auto 8 with reify) : vni t f g) v W4) end end.
  - match goal with |- ?f (?g ?v) = _ => match type of W5 with wt ?t _ => exact ((ltac:(auto 8 with reify) : vni t f g) v W5) end end.
  - match goal with |- ?f (?g ?v) = _ => match type of W6 with wt ?t _ => exact ((ltac:(auto 8 with reify) : vni t f g) v W6) end end.
  - match goal with |- ?f (?g ?v) = _ => match type of W7 with wt ?t _ => exact ((ltac:(auto 8 with reify) : vni t f g) v W7) end end.
  - match goal with |- ?f (?g ?v) = _ => match type of W8 with wt ?t _ => exact ((ltac:(auto 8 with reify) : vni t f g) v W8) end end.
  - match goal with |- ?f (?g ?v) = _ => match type of W9 with wt ?t _ => exact ((ltac:(auto 8 with reify) : vni t f g) v W9) end end.
  - match goal with |- ?f (?g ?v) = _ => match type of W10 with wt ?t _ => exact ((ltac:(auto 8 with reify) : vni t f g) v W10) end end.
  - match goal with |- ?f (?g ?v) = _ => match type of W11 with wt ?t _ => exact ((ltac:(auto 8 with reify) : vni t f g) v W11) end end.
Qed.
#[export] Hint Resolve inv_TaskWorkspace typed_TaskWorkspace vni_TaskWorkspace : reify.

Lemma kind_Task : kind_of (TRef "Task") = KStruct fields_Task. Proof. reflexivity. Qed.
Lemma wt_Task_inv v : wt (TRef "Task") v -> exists vs, v = VStruct vs /\ zip_all (fun f x => wt (f_ty f) x) vs fields_Task.
Proof.
  intros W. destruct v; cbn [wt] in W; rewrite kind_Task in W; try discriminate; try contradiction. eauto.
Qed.
Lemma inv_Task : inv reify_Task reflect_Task.
Proof. intros x; unfold reify_Task; cbn [reflect_Task]; rr; destruct x; reflexivity. Qed.
Lemma typed_Task : typed (TRef "Task") reify_Task.
Proof.
  intros x; unfold reify_Task; cbn [wt]; rewrite kind_Task; unfold fields_Task; cbn [zip_all f_ty]; fields_typed;
    match goal with |- wt ?t (?f ?x) => apply (ltac:(auto 8 with reify) : typed t f) end.
Qed.
Lemma vni_Task : vni (TRef "Task") reify_Task reflect_Task.
Proof.
  intros v W.
  apply wt_Task_inv in W as (vs & -> & W). unfold fields_Task in W.
  destruct vs as [|a0 vs]; [destruct W|]. destruct W as [W0 W]. cbn [f_ty] in W0.
  destruct vs as [|a1 vs]; [destruct W|]. destruct W as [W1 W]. cbn [f_ty] in W1.
  destruct vs as [|a2 vs]; [destruct W|]. destruct W as [W2 W]. cbn [f_ty] in W2.
  destruct vs as [|a3 vs]; [destruct W|]. destruct W as [W3 W]. cbn [f_ty] in W3.
  destruct vs as [|a4 vs]; [destruct W|]. destruct W as [W4 W]. cbn [f_ty] in W4.
  destruct vs as [|a5 vs]; [destruct W|]. destruct W as [W5 W]. cbn [f_ty] in W5.
  destruct vs as [|a6 vs]; [destruct W|]. destruct W as [W6 W]. cbn [f_ty] in W6.
  destruct vs as [|a7 vs]; [destruct W|]. destruct W as [W7 W]. cbn [f_ty] in W7.
  destruct vs as [|a8 vs]; [destruct W|]. destruct W as [W8 W]. cbn [f_ty] in W8.
  destruct vs as [|a9 vs]; [destruct W|]. destruct W as [W9 W]. cbn [f_ty] in W9.
  destruct vs as [|a10 vs]; [destruct W|]. destruct W as [W10 W]. cbn [f_ty] in W10.
  destruct vs as [|a11 vs]; [destruct W|]. destruct W as [W11 W]. cbn [f_ty] in W11.
  destruct vs as [|a12 vs]; [destruct W|]. destruct W as [W12 W]. cbn [f_ty] in W12.
  destruct vs as [|a13 vs]; [destruct W|]. destruct W as [W13 W]. cbn [f_ty] in W13.
  destruct vs as [|a14 vs]; [destruct W|]. destruct W as [W14 W]. cbn [f_ty] in W14.
  destruct vs as [|? ?]; [clear W|destruct W].
  cbn [reflect_Task]. unfold reify_Task. cbn [Task_BOMRef Task_UID Task_Name Task_Description Task_Properties Task_ResourceReferences Task_TaskTypes Task_Trigger Task_Steps Task_Inputs Task_Outputs Task_TimeStart Task_TimeEnd Task_Workspaces Task_RuntimeTopology]. fields_back.
  - match goal with |- ?f (?g ?v) = _ => match type of W0 with wt ?t _ => exact ((ltac:(auto 8 with reify) : vni t f g) v W0) end end.
  - match goal with |- ?f (?g ?v) = _ => match type of W1 with wt ?t _ => exact ((ltac:(auto 8 with reify) : vni t f g) v W1) end end.
  - match goal with |- ?f (?g ?v) = _ => match type of W2 with wt ?t _ => exact ((ltac:(auto 8 with reify) : vni t f g) v W2) end end.
  - match goal with |- ?f (?g ?v) = _ => match type of W3 with wt ?t _ => exact ((ltac:(auto 8 with reify) : vni t f g) v W3) end end.
  - match goal with |- ?f (?g ?v) = _ => match type of W4 with wt ?t _ => exact ((ltac:(auto 8 with reify) : vni t f g) v W4) end end.
  - match goal with |- ?f (?g ?v) = _ => match type of W5 with wt ?t _ => exact ((ltac:(auto 8 with reify) : vni t f g) v W5) end end.
  - match goal with |- ?f (?g ?v) = _ => match type of W6 with wt ?t _ => exact ((ltac:(auto 8 with reify) : vni t f g) v W6) end end.
  - match goal with |- ?f (?g ?v) = _ => match type of W7 with wt ?t _ => exact ((ltac:(auto 8 with reify) : vni t f g) v W7) end end.
  - match goal with |- ?f (?g ?v) = _ => match type of W8 with wt ?t _ => exact ((ltac:(auto 8 with reify) : vni t f g) v W8) end end.
  - match goal with |- ?f (?g ?v) = _ => match type of W9 with wt ?t _ => exact ((ltac:(auto 8 with reify) : vni t f g) v W9) end end.
  - match goal with |- ?f (?g ?v) = _ => match type of W10 with wt ?t _ => exact ((ltac:(auto 8 with reify) : vni t f g) v W10) end end.
  - match goal with |- ?f (?g ?v) = _ => match type of W11 with wt ?t _ => exact ((ltac:(auto 8 with reify) : vni t f g) v W11) end end.
  - match goal with |- ?f (?g ?v) = _ => match type of W12 with wt ?t _ => exact ((ltac:(auto 8 with reify) : vni t f g) v W12) end end.
  - match goal with |- ?f (?g ?v) = _ => match type of W13 with wt ?t _ => exact ((ltac:(auto 8 with reify) : vni t f g) v W13) end end.
  - match goal with |- ?f (?g ?v) = _ => match type of W14 with wt ?t _ => exact ((ltac:(auto 8 with reify) : vni t f g) v W14) end end.
Qed.
#[export] Hint Resolve inv_Task typed_Task vni_Task : reify.

Lemma kind_Workflow : kind_of (TRef "Workflow") = KStruct fields_Workflow. Proof. reflexivity. Qed.
Lemma wt_Workflow_inv v : wt (TRef "Workflow") v -> exists vs, v = VStruct vs /\ zip_all (fun f x => wt (f_ty f) x) vs fields_Workflow.
Proof.
  intros W. destruct v; cbn [wt] in W; rewrite kind_Workflow in W; try discriminate; try contradiction. eauto.
Qed.
Lemma inv_Workflow : inv reify_Workflow reflect_Workflow.
Proof. intros x; unfold reify_Workflow; cbn [reflect_Workflow]; rr; destruct x; reflexivity. Qed.
Lemma typed_Workflow : typed (TRef "Workflow") reify_Workflow.
Proof.
  intros x; unfold reify_Workflow; cbn [wt]; rewrite kind_Workflow; unfold fields_Workflow; cbn [zip_all f_ty]; fields_typed;
    match goal with |- wt ?t (?f ?x) => apply (ltac:(auto 8 with reify) : typed t f) end.
Qed.
Lemma vni_Workflow : vni (TRef "Workflow") reify_Workflow reflect_Workflow.
Proof.
  intros v W.
  apply wt_Workflow_inv in W as (vs & -> & W). unfold fields_Workflow in W.
  destruct vs as [|a0 vs]; [destruct W|]. destruct W as [W0 W]. cbn [f_ty] in W0.
  destruct vs as [|a1 vs]; [destruct W|]. destruct W as [W1 W]. cbn [f_ty] in W1.
  destruct vs as [|a2 vs]; [destruct W|]. destruct W as [W2 W]. cbn [f_ty] in W2.
  destruct vs as [|a3 vs]; [destruct W|]. destruct W as [W3 W]. cbn [f_ty] in W3.
  destruct vs as [|a4 vs]; [destruct W|]. destruct W as [W4 W]. cbn [f_ty] in W4.
  destruct vs as [|a5 vs]; [destruct W|]. destruct W as [W5 W]. cbn [f_ty] in W5.
  destruct vs as [|a6 vs]; [destruct W|]. destruct W as [W6 W]. cbn [f_ty] in W6.
  destruct vs as [|a7 vs]; [destruct W|]. destruct W as [W7 W]. cbn [f_ty] in W7.
  destruct vs as [|a8 vs]; [destruct W|]. destruct W as [W8 W]. cbn [f_ty] in W8.
  destruct vs as [|a9 vs]; [destruct W|]. destruct W as [W9 W]. cbn [f_ty] in W9.
  destruct vs as [|a10 vs]; [destruct W|]. destruct W as [W10 W]. cbn [f_ty] in W10.
  destruct vs as [|a11 vs]; [destruct W|]. destruct W as [W11 W]. cbn [f_ty] in W11.
  destruct vs as [|a12 vs]; [destruct W|]. destruct W as [W12 W]. cbn [f_ty] in W12.
  destruct vs as [|a13 vs]; [destruct W|]. destruct W as [W13 W]. cbn [f_ty] in W13.
  destruct vs as [|a14 vs]; [destruct W|]. destruct W as [W14 W]. cbn [f_ty] in W14.
  destruct vs as [|a15 vs]; [destruct W|]. destruct W as [W15 W]. cbn [f_ty] in W15.
  destruct vs as [|a16 vs]; [destruct W|]. destruct W as [W16 W]. cbn [f_ty] in W16.
  destruct vs as [|? ?]; [clear W|destruct W].
  cbn [reflect_Workflow]. unfold reify_Workflow. cbn [Workflow_BOMRef Workflow_UID Workflow_Name Workflow_Description Workflow_ResourceReferences Workflow_Tasks Workflow_TaskDependencies Workflow_TaskTypes Workflow_Trigger Workflow_Steps Workflow_Inputs Workflow_Outputs Workflow_TimeStart Workflow_TimeEnd Workflow_Workspaces Workflow_RuntimeTopology Workflow_Properties]. fields_back.
  - match goal with |- ?f (?g ?v) = _ => match type of W0 with wt ?t _ => exact ((ltac:(auto 8 with reify) : vni t f g) v W0) end end.
  - match goal with |- ?f (?g ?v) = _ => match type of W1 with wt ?t _ => exact ((ltac:(auto 8 with reify) : vni t f g) v W1) end end.
  - match goal with |- ?f (?g ?v) = _ => match type of W2 with wt ?t _ => exact ((ltac:(auto 8 with reify) : vni t f g) v W2) end end.
  - match goal with |- ?f (?g ?v) = _ => match type of W3 with wt ?t _ => exact ((ltac:(auto 8 with reify) : vni t f g) v W3) end end.
  - match goal with |- ?f (?g ?v) = _ => match type of W4 with wt ?t _ => exact ((ltac:(auto 8 with reify) : vni t f g) v W4) end end.
  - match goal with |- ?f (?g ?v) = _ => match type of W5 with wt ?t _ => exact ((ltac:(auto 8 with reify) : vni t f g) v W5) end end.
  - match goal with |- ?f (?g ?v) = _ => match type of W6 with wt ?t _ => exact ((ltac:(auto 8 with reify) : vni t f g) v W6) end end.
  - match goal with |- ?f (?g ?v) = _ => match type of W7 with wt ?t _ => exact ((ltac:(auto 8 with reify) : vni t f g) v W7) end end.
  - match goal with |- ?f (?g ?v) = _ => match type of W8 with wt ?t _ => exact ((ltac:(auto 8 with reify) : vni t f g) v W8) end end.
  - match goal with |- ?f (?g ?v) = _ => match type of W9 with wt ?t _ => exact ((ltac:(auto 8 with reify) : vni t f g) v W9) end end.
  - match goal with |- ?f (?g ?v) = _ => match type of W10 with wt ?t _ => exact ((ltac:(auto 8 with reify) : vni t f g) v W10) end end.
  - match goal with |- ?f (?g ?v) = _ => match type of W11 with wt ?t _ => exact ((ltac:(auto 8 with reify) : vni t f g) v W11) end end.
  - match goal with |- ?f (?g ?v) = _ => match type of W12 with wt ?t _ => exact ((ltac:(auto 8 with reify) : vni t f g) v W12) end end.
  - match goal with |- ?f (?g ?v) = _ => match type of W13 with wt ?t _ => exact ((ltac:(auto 8 with reify) : vni t f g) v W13) end end.
  - match goal with |- ?f (?g ?v) = _ => match type of W14 with wt ?t _ => exact ((ltac:(auto 8 with reify) : vni t f g) v W14) end end.
  - match goal with |- ?f (?g ?v) = _ => match type of W15 with wt ?t _ => exact ((ltac:(auto 8 with reify) : vni t f g) v W15) end end.
  - match goal with |- ?f (?g ?v) = _ => match type of W16 with wt ?t _ => exact ((ltac:(auto 8 with reify) : vni t f g) v W16) end end.
Qed.
#[export] Hint Resolve inv_Workflow typed_Workflow vni_Workflow : reify.

Lemma kind_Formula : kind_of (TRef "Formula") = KStruct fields_Formula. Proof. reflexivity. Qed.
Lemma wt_Formula_inv v : wt (TRef "Formula") v -> exists vs, v = VStruct vs /\ zip_all (fun f x => wt (f_ty f) x) vs fields_Formula.
Proof.
  intros W. destruct v; cbn [wt] in W; rewrite kind_Formula in W; try discriminate; try contradiction. eauto.
Qed.
Lemma inv_Formula : inv reify_Formula reflect_Formula.
Proof. intros x; unfold reify_Formula; cbn [reflect_Formula]; rr; destruct x; reflexivity. Qed.
Lemma typed_Formula : typed (TRef "Formula") reify_Formula.
Proof.
  intros x; unfold reify_Formula; cbn [wt]; rewrite kind_Formula; unfold fields_Formula; cbn [zip_all f_ty]; fields_typed;
    match goal with |- wt ?t (?f ?x) => apply (ltac:(auto 8 with reify) : typed t f) end.
Qed.
Lemma vni_Formula : vni (TRef "Formula") reify_Formula reflect_Formula.
Proof.
  intros v W.
  apply wt_Formula_inv in W as (vs & -> & W). unfold fields_Formula in W.
  destruct vs as [|a0 vs]; [destruct W|]. destruct W as [W0 W]. cbn [f_ty] in W0.
  destruct vs as [|a1 vs]; [destruct W|]. destruct W as [W1 W]. cbn [f_ty] in W1.
  destruct vs as [|a2 vs]; [destruct W|]. destruct W as [W2 W]. cbn [f_ty] in W2.
  destruct vs as [|a3 vs]; [destruct W|]. destruct W as [W3 W]. cbn [f_ty] in W3.
  destruct vs as [|a4 vs]; [destruct W|]. destruct W as [W4 W]. cbn [f_ty] in W4.
  destruct vs as [|? ?]; [clear W|destruct W].
  cbn [reflect_Formula]. unfold reify_Formula. cbn [Formula_BOMRef Formula_Components Formula_Services Formula_Workflows Formula_Properties]. fields_back.
  - match goal with |- ?f (?g ?v) = _ => match type of W0 with wt ?t _ => exact ((ltac:(auto 8 with reify) : vni t f g) v W0) end end.
  - match goal with |- ?f (?g ?v) = _ => match type of W1 with wt ?t _ => exact ((ltac:(auto 8 with reify) : vni t f g) v W1) end end.
  - match goal with |- ?f (?g ?v) = _ => match type of W2 with wt ?t _ => exact ((ltac:(auto 8 with reify) : vni t f g) v W2) end end.
  - match goal with |- ?f (?g ?v) = _ => match type of W3 with wt ?t _ => exact ((ltac:(auto 8 with reify) : vni t f g) v W3) end end.
  - match goal with |- ?f (?g ?v) = _ => match type of W4 with wt ?t _ => exact ((ltac:(auto 8 with reify) : vni t f g) v W4) end end.
Qed.
#[export] Hint Resolve inv_Formula typed_Formula vni_Formula : reify.

Lemma kind_Claim : kind_of (TRef "Claim") = KStruct fields_Claim. Proof. reflexivity. Qed.
Lemma wt_Claim_inv v : wt (TRef "Claim") v -> exists vs, v = VStruct vs /\ zip_all (fun f x => wt (f_ty f) x) vs fields_Claim.
Proof.
  intros W. destruct v; cbn [wt] in W; rewrite kind_Claim in W; try discriminate; try contradiction. eauto.
Qed.
Lemma inv_Claim : inv reify_Claim reflect_Claim.
Proof. intros x; unfold reify_Claim; cbn [reflect_Claim]; rr; destruct x; reflexivity. Qed.
Lemma typed_Claim : typed (TRef "Claim") reify_Claim.
Proof.
  intros x; unfold reify_Claim; cbn [wt]; rewrite kind_Claim; unfold fields_Claim; cbn [zip_all f_ty]; fields_typed;
    match goal with |- wt ?t (?f ?x) => apply (ltac:(auto 8 with reify) : typed t f) end.
Qed.
Lemma vni_Claim : vni (TRef "Claim") reify_Claim reflect_Claim.
Proof.
  intros v W.
  apply wt_Claim_inv in W as (vs & -> & W). unfold fields_Claim in W.
  destruct vs as [|a0 vs]; [destruct W|]. destruct W as [W0 W]. cbn [f_ty] in W0.
  destruct vs as [|a1 vs]; [destruct W|]. destruct W as [W1 W]. cbn [f_ty] in W1.
  destruct vs as [|a2 vs]; [destruct W|]. destruct W as [W2 W]. cbn [f_ty] in W2.
  destruct vs as [|a3 vs]; [destruct W|]. destruct W as [W3 W]. cbn [f_ty] in W3.
  destruct vs as [|a4 vs]; [destruct W|]. destruct W as [W4 W]. cbn [f_ty] in W4.
  destruct vs as [|a5 vs]; [destruct W|]. destruct W as [W5 W]. cbn [f_ty] in W5.
  destruct vs as [|a6 vs]; [destruct W|]. destruct W as [W6 W]. cbn [f_ty] in W6.
  destruct vs as [|a7 vs]; [destruct W|]. destruct W as [W7 W]. cbn [f_ty] in W7.
  destruct vs as [|a8 vs]; [destruct W|]. destruct W as [W8 W]. cbn [f_ty] in W8.
  destruct vs as [|? ?]; [clear W|destruct W].
  cbn [reflect_Claim]. unfold reify_Claim. cbn [Claim_BOMRef Claim_Target Claim_Predicate Claim_MitigationStrategies Claim_Reasoning Claim_Evidence Claim_CounterEvidence Claim_ExternalReferences Claim_Signature]. fields_back.
  - match goal with |- ?f (?g ?v) = _ => match type of W0 with wt ?t _ => exact ((ltac:(auto 8 with reify) : vni t f g) v W0) end end.
  - match goal with |- ?f (?g ?v) = _ => match type of W1 with wt ?t _ => exact ((ltac:(auto 8 with reify) : vni t f g) v W1) end end.
  - match goal with |- ?f (?g ?v) = _ => match type of W2 with wt ?t _ => exact ((ltac:(auto 8 with reify) : vni t f g) v W2) end end.
  - match goal with |- ?f (?g ?v) = _ => match type of W3 with wt ?t _ => exact ((ltac:(auto 8 with reify) : vni t f g) v W3) end end.
  - match goal with |- ?f (?g ?v) = _ => match type of W4 with wt ?t _ => exact ((ltac:(auto 8 with reify) : vni t f g) v W4) end end.
  - match goal with |- ?f (?g ?v) = _ => match type of W5 with wt ?t _ => exact ((ltac:(auto 8 with reify) : vni t f g) v W5) end end.
  - match goal with |- ?f (?g ?v) = _ => match type of W6 with wt ?t _ => exact ((ltac:(auto 8 with reify) : vni t f g) v W6) end end.
  - match goal with |- ?f (?g ?v) = _ => match type of W7 with wt ?t _ => exact ((ltac:(auto 8 with reify) : vni t f g) v W7) end end.
  - match goal with |- ?f (?g ?v) = _ => match type of W8 with wt ?t _ => exact ((ltac:(auto 8 with reify) : vni t f g) v W8) end end.
Qed.
#[export] Hint Resolve inv_Claim typed_Claim vni_Claim : reify.

Lemma kind_EvidenceDataContents : kind_of (TRef "EvidenceDataContents") = KStruct fields_EvidenceDataContents. Proof. reflexivity. Qed.
Lemma wt_EvidenceDataContents_inv v : wt (TRef "EvidenceDataContents") v -> exists vs, v = VStruct vs /\ zip_all (fun f x => wt (f_ty f) x) vs fields_EvidenceDataContents.
Proof.
  intros W. destruct v; cbn [wt] in W; rewrite kind_EvidenceDataContents in W; try discriminate; try contradiction. eauto.
Qed.
Lemma inv_EvidenceDataContents : inv reify_EvidenceDataContents reflect_EvidenceDataContents.
Proof. intros x; unfold reify_EvidenceDataContents; cbn [reflect_EvidenceDataContents]; rr; destruct x; reflexivity. Qed.
Lemma typed_EvidenceDataContents : typed (TRef "EvidenceDataContents") reify_EvidenceDataContents.
Proof.
  intros x; unfold reify_EvidenceDataContents; cbn [wt]; rewrite kind_EvidenceDataContents; unfold fields_EvidenceDataContents; cbn [zip_all f_ty]; fields_typed;
    match goal with |- wt ?t (?f ?x) => apply (ltac:(auto 8 with reify) : typed t f) end.
Qed.
Lemma vni_EvidenceDataContents : vni (TRef "EvidenceDataContents") reify_EvidenceDataContents reflect_EvidenceDataContents.
Proof.
  intros v W.
  apply wt_EvidenceDataContents_inv in W as (vs & -> & W). unfold fields_EvidenceDataContents in W.
  destruct vs as [|a0 vs]; [destruct W|]. destruct W as [W0 W]. cbn [f_ty] in W0.
  destruct vs as [|a1 vs]; [destruct W|]. destruct W as [W1 W]. cbn [f_ty] in W1.
  destruct vs as [|? ?]; [clear W|destruct W].
  cbn [reflect_EvidenceDataContents]. unfold reify_EvidenceDataContents. cbn [EvidenceDataContents_Attachment EvidenceDataContents_URL]. fields_back.
  - match goal with |- ?f (?g ?v) = _ => match type of W0 with wt ?t _ => exact ((ltac:(auto 8 with reify) : vni t f g) v W0) end end.
  - match goal with |- ?f (?g ?v) = _ => match type of W1 with wt ?t _ => exact ((ltac:(auto 8 with reify) : vni t f g) v W1) end end.
Qed.
#[export] Hint Resolve inv_EvidenceDataContents typed_EvidenceDataContents vni_EvidenceDataContents : reify.

Lemma kind_EvidenceData : kind_of (TRef "EvidenceData") = KStruct fields_EvidenceData. Proof. reflexivity. Qed.
Lemma wt_EvidenceData_inv v : wt (TRef "EvidenceData") v -> exists vs, v = VStruct vs /\ zip_all (fun f x => wt (f_ty f) x) vs fields_EvidenceData.
Proof.
  intros W. destruct v; cbn [wt] in W; rewrite kind_EvidenceData in W; try discriminate; try contradiction. eauto.
Qed.
Lemma inv_EvidenceData : inv reify_EvidenceData reflect_EvidenceData.
Proof. intros x; unfold reify_EvidenceData; cbn [reflect_EvidenceData]; rr; destruct x; reflexivity. Qed.
Lemma typed_EvidenceData : typed (TRef "EvidenceData") reify_EvidenceData.
Proof.
  intros x; unfold reify_EvidenceData; cbn [wt]; rewrite kind_EvidenceData; unfold fields_EvidenceData; cbn [zip_all f_ty]; fields_typed;
    match goal with |- wt ?t (?f ?x) => apply (ltac:(auto 8 with reify) : typed t f) end.
Qed.
Lemma vni_EvidenceData : vni (TRef "EvidenceData") reify_EvidenceData reflect_EvidenceData.
Proof.
  intros v W.
  apply wt_EvidenceData_inv in W as (vs & -> & W). unfold fields_EvidenceData in W.
  destruct vs as [|a0 vs]; [destruct W|]. destruct W as [W0 W]. cbn [f_ty] in W0.
  destruct vs as [|a1 vs]; [destruct W|]. destruct W as [W1 W]. cbn [f_ty] in W1.
  destruct vs as [|a2 vs]; [destruct W|]. destruct W as [W2 W]. cbn [f_ty] in W2.
  destruct vs as [|a3 vs]; [destruct W|]. destruct W as [W3 W]. cbn [f_ty] in W3.
  destruct vs as [|a4 vs]; [destruct W|]. destruct W as [W4 W]. cbn [f_ty] in W4.
  destruct vs as [|? ?]; [clear W|destruct W].
  cbn [reflect_EvidenceData]. unfold reify_EvidenceData. cbn [EvidenceData_Name EvidenceData_Contents EvidenceData_Classification EvidenceData_SensitiveData EvidenceData_Governance]. fields_back.
  - match goal with |- ?f (?g ?v) = _ => match type of W0 with wt ?t _ => exact ((ltac:(auto 8 with reify) : vni t f g) v W0) end end.
  - match goal with |- ?f (?g ?v) = _ => match type of W1 with wt ?t _ => exact ((ltac:(auto 8 with reify) : vni t f g) v W1) end end.
  - match goal with |- ?f (?g ?v) = _ => match type of W2 with wt ?t _ => exact ((ltac:(auto 8 with reify) : vni t f g) v W2) end end.
  - match goal with |- ?f (?g ?v) = _ => match type of W3 with wt ?t _ => exact ((ltac:(auto 8 with reify) : vni t f g) v W3) end end.
  - match goal with |- ?f (?g ?v) = _ => match type of W4 with wt ?t _ => exact ((ltac:(auto 8 with reify) : vni t f g) v W4) end end.
Qed.
#[export] Hint Resolve inv_EvidenceData typed_EvidenceData vni_EvidenceData : reify.

Lemma kind_DeclarationEvidence : kind_of (TRef "DeclarationEvidence") = KStruct fields_DeclarationEvidence. Proof. reflexivity. Qed.
Lemma wt_DeclarationEvidence_inv v : wt (TRef "DeclarationEvidence") v -> exists vs, v = VStruct vs /\ zip_all (fun f x => wt (f_ty f) x) vs fields_DeclarationEvidence.
Proof.
  intros W. destruct v; cbn [wt] in W; rewrite kind_DeclarationEvidence in W; try discriminate; try contradiction. eauto.
Qed.
Lemma inv_DeclarationEvidence : inv reify_DeclarationEvidence reflect_DeclarationEvidence.
Proof. intros x; unfold reify_DeclarationEvidence; cbn [reflect_DeclarationEvidence]; rr; destruct x; reflexivity. Qed.
Lemma typed_DeclarationEvidence : typed (TRef "DeclarationEvidence") reify_DeclarationEvidence.
Proof.
  intros x; unfold reify_DeclarationEvidence; cbn [wt]; rewrite kind_DeclarationEvidence; unfold fields_DeclarationEvidence; cbn [zip_all f_ty]; fields_typed;
    match goal with |- wt ?t (?f ?x) => apply (ltac:(auto 8 with reify) : typed t f) end.
Qed.
Lemma vni_DeclarationEvidence : vni (TRef "DeclarationEvidence") reify_DeclarationEvidence reflect_DeclarationEvidence.
Proof.
  intros v W.
  apply wt_DeclarationEvidence_inv in W as (vs & -> & W). unfold fields_DeclarationEvidence in W.
  destruct vs as [|a0 vs]; [destruct W|]. destruct W as [W0 W]. cbn [f_ty] in W0.
  destruct vs as [|a1 vs]; [destruct W|]. destruct W as [W1 W]. cbn [f_ty] in W1.
  destruct vs as [|a2 vs]; [destruct W|]. destruct W as [W2 W]. cbn [f_ty] in W2.
  destruct vs as [|a3 vs]; [destruct W|]. destruct W as [W3 W]. cbn [f_ty] in W3.
  destruct vs as [|a4 vs]; [destruct W|]. destruct W as [W4 W]. cbn [f_ty] in W4.
  destruct vs as [|a5 vs]; [destruct W|]. destruct W as [W5 W]. cbn [f_ty] in W5.
  destruct vs as [|a6 vs]; [destruct W|]. destruct W as [W6 W]. cbn [f_ty] in W6.
  destruct vs as [|a7 vs]; [destruct W|]. destruct W as [W7 W]. cbn [f_ty] in W7.
  destruct vs as [|a8 vs]; [destruct W|]. destruct W as [W8 W]. cbn [f_ty] in W8.
  destruct vs as [|? ?]; [clear W|destruct W].
  cbn [reflect_DeclarationEvidence]. unfold reify_DeclarationEvidence. cbn [DeclarationEvidence_BOMRef DeclarationEvidence_PropertyName DeclarationEvidence_Description DeclarationEvidence_Data DeclarationEvidence_Created DeclarationEvidence_Expires DeclarationEvidence_Author DeclarationEvidence_Reviewer DeclarationEvidence_Signature]. fields_back.
  - match goal with |- ?f (?g ?v) = _ => match type of W0 with wt ?t _ => exact ((ltac:(auto 8 with reify) : vni t f g) v W0) end end.
  - match goal with |- ?f (?g ?v) = _ => match type of W1 with wt ?t _ => exact ((ltac:(auto 8 with reify) : vni t f g) v W1) end end.
  - match goal with |- ?f (?g ?v) = _ => match type of W2 with wt ?t _ => exact ((ltac:(auto 8 with reify) : vni t f g) v W2) end end.
  - match goal with |- ?f (?g ?v) = _ => match type of W3 with wt ?t _ => exact ((ltac:(auto 8 with reify) : vni t f g) v W3) end end.
  - match goal with |- ?f (?g ?v) = _ => match type of W4 with wt ?t _ => exact ((ltac:(auto 8 with reify) : vni t f g) v W4) end end.
  - match goal with |- ?f (?g ?v) = _ => match type of W5 with wt ?t _ => exact ((ltac:(auto 8 with reify) : vni t f g) v W5) end end.
  - match goal with |- ?f (?g ?v) = _ => match type of W6 with wt ?t _ => exact ((ltac:(auto 8 with reify) : vni t f g) v W6) end end.
  - match goal with |- ?f (?g ?v) = _ => match type of W7 with wt ?t _ => exact ((ltac:(auto 8 with reify) : vni t f g) v W7) end end.
  - match goal with |- ?f (?g ?v) = _ => match type of W8 with wt ?t _ => exact ((ltac:(auto 8 with reify) : vni t f g) v W8) end end.
Qed.
#[export] Hint Resolve inv_DeclarationEvidence typed_DeclarationEvidence vni_DeclarationEvidence : reify.

Lemma kind_Targets : kind_of (TRef "Targets") = KStruct fields_Targets. Proof. reflexivity. Qed.
Lemma wt_Targets_inv v : wt (TRef "Targets") v -> exists vs, v = VStruct vs /\ zip_all (fun f x => wt (f_ty f) x) vs fields_Targets.
Proof.
  intros W. destruct v; cbn [wt] in W; rewrite kind_Targets in W; try discriminate; try contradiction. eauto.
Qed.
Lemma inv_Targets : inv reify_Targets reflect_Targets.
Proof. intros x; unfold reify_Targets; cbn [reflect_Targets]; rr; destruct x; reflexivity. Qed.
Lemma typed_Targets : typed (TRef "Targets") reify_Targets.
Proof.
  intros x; unfold reify_Targets; cbn [wt]; rewrite kind_Targets; unfold fields_Targets; cbn [zip_all f_ty]; fields_typed;
    match goal with |- wt ?t (?f ?x) => apply (ltac:(auto 8 with reify) : typed t f) end.
Qed.
Lemma vni_Targets : vni (TRef "Targets") reify_Targets reflect_Targets.
Proof.
  intros v W.
  apply wt_Targets_inv in W as (vs & -> & W). unfold fields_Targets in W.
  destruct vs as [|a0 vs]; [destruct W|]. destruct W as [W0 W]. cbn [f_ty] in W0.
  destruct vs as [|a1 vs]; [destruct W|]. destruct W as [W1 W]. cbn [f_ty] in W1.
  destruct vs as [|a2 vs]; [destruct W|]. destruct W as [W2 W]. cbn [f_ty] in W2.
  destruct vs as [|? ?]; [clear W|destruct W].
  cbn [reflect_Targets]. unfold reify_Targets. cbn [Targets_Organizations Targets_Components Targets_Services]. fields_back.
  - match goal with |- ?f (?g ?v) = _ => match type of W0 with wt ?t _ => exact ((ltac:(auto 8 with reify) : vni t f g) v W0) end end.
  - match goal with |- ?f (?g ?v) = _ => match type of W1 with wt ?t _ => exact ((ltac:(auto 8 with reify) : vni t f g) v W1) end end.
  - match goal with |- ?f (?g ?v) = _ => match type of W2 with wt ?t _ => exact ((ltac:(auto 8 with reify) : vni t f g) v W2) end end.
Qed.
#[export] Hint Resolve inv_Targets typed_Targets vni_Targets : reify.

Lemma kind_Signatory : kind_of (TRef "Signatory") = KStruct fields_Signatory. Proof. reflexivity. Qed.
Lemma wt_Signatory_inv v : wt (TRef "Signatory") v -> exists vs, v = VStruct vs /\ zip_all (fun f x => wt (f_ty f) x) vs fields_Signatory.
Proof.
  intros W. destruct v; cbn [wt] in W; rewrite kind_Signatory in W; try discriminate; try contradiction. eauto.
Qed.
Lemma inv_Signatory : inv reify_Signatory reflect_Signatory.
Proof. intros x; unfold reify_Signatory; cbn [reflect_Signatory]; rr; destruct x; reflexivity. Qed.
Lemma typed_Signatory : typed (TRef "Signatory") reify_Signatory.
Proof.
  intros x; unfold reify_Signatory; cbn [wt]; rewrite kind_Signatory; unfold fields_Signatory; cbn [zip_all f_ty]; fields_typed;
    match goal with |- wt ?t (?f ?x) => apply (ltac:(auto 8 with reify) : typed t f) end.
Qed.
Lemma vni_Signatory : vni (TRef "Signatory") reify_Signatory reflect_Signatory.
Proof.
  intros v W.
  apply wt_Signatory_inv in W as (vs & -> & W). unfold fields_Signatory in W.
  destruct vs as [|a0 vs]; [destruct W|]. destruct W as [W0 W]. cbn [f_ty] in W0.
  destruct vs as [|a1 vs]; [destruct W|]. destruct W as [W1 W]. cbn [f_ty] in W1.
  destruct vs as [|a2 vs]; [destruct W|]. destruct W as [W2 W]. cbn [f_ty] in W2.
  destruct vs as [|a3 vs]; [destruct W|]. destruct W as [W3 W]. cbn [f_ty] in W3.
  destruct vs as [|a4 vs]; [destruct W|]. destruct W as [W4 W]. cbn [f_ty] in W4.
  destruct vs as [|? ?]; [clear W|destruct W].
  cbn [reflect_Signatory]. unfold reify_Signatory. cbn [Signatory_Name Signatory_Role Signatory_Signature Signatory_Organization Signatory_ExternalReference]. fields_back.
  - match goal with |- ?f (?g ?v) = _ => match type of W0 with wt ?t _ => exact ((ltac:(auto 8 with reify) : vni t f g) v W0) end end.
  - match goal with |- ?f (?g ?v) = _ => match type of W1 with wt ?t _ => exact ((ltac:(auto 8 with reify) : vni t f g) v W1) end end.
  - match goal with |- ?f (?g ?v) = _ => match type of W2 with wt ?t _ => exact ((ltac:(auto 8 with reify) : vni t f g) v W2) end end.
  - match goal with |- ?f (?g ?v) = _ => match type of W3 with wt ?t _ => exact ((ltac:(auto 8 with reify) : vni t f g) v W3) end end.
  - match goal with |- ?f (?g ?v) = _ => match type of W4 with wt ?t _ => exact ((ltac:(auto 8 with reify) : vni t f g) v W4) end end.
Qed.
#[export] Hint Resolve inv_Signatory typed_Signatory vni_Signatory : reify.

Lemma kind_Affirmation : kind_of (TRef "Affirmation") = KStruct fields_Affirmation. Proof. reflexivity. Qed.
Lemma wt_Affirmation_inv v : wt (TRef "Affirmation") v -> exists vs, v = VStruct vs /\ zip_all (fun f x => wt (f_ty f) x) vs fields_Affirmation.
Proof.
  intros W. destruct v; cbn [wt] in W; rewrite kind_Affirmation in W; try discriminate; try contradiction. eauto.
Qed.
Lemma inv_Affirmation : inv reify_Affirmation reflect_Affirmation.
Proof. intros x; unfold reify_Affirmation; cbn [reflect_Affirmation]; rr; destruct x; reflexivity. Qed.
Lemma typed_Affirmation : typed (TRef "Affirmation") reify_Affirmation.
Proof.
  intros x; unfold reify_Affirmation; cbn [wt]; rewrite kind_Affirmation; unfold fields_Affirmation; cbn [zip_all f_ty]; fields_typed;
    match goal with |- wt ?t (?f ?x) => apply (ltac:(auto 8 with reify) : typed t f) end.
Qed.
Lemma vni_Affirmation : vni (TRef "Affirmation") reify_Affirmation reflect_Affirmation.
Proof.
  intros v W.
  apply wt_Affirmation_inv in W as (vs & -> & W). unfold fields_Affirmation in W.
  destruct vs as [|a0 vs]; [destruct W|]. destruct W as [W0 W]. cbn [f_ty] in W0.
  destruct vs as [|a1 vs]; [destruct W|]. destruct W as [W1 W]. cbn [f_ty] in W1.
  destruct vs as [|a2 vs]; [destruct W|]. destruct W as [W2 W]. cbn [f_ty] in W2.
  destruct vs as [|? ?]; [clear W|destruct W].
  cbn [reflect_Affirmation]. unfold reify_Affirmation. cbn [Affirmation_Statement Affirmation_Signatories Affirmation_Signature]. fields_back.
  - match goal with |- ?f (?g ?v) = _ => match type of W0 with wt ?t _ => exact ((ltac:(auto 8 with reify) : vni t f g) v W0) end end.
  - match goal with |- ?f (?g ?v) = _ => match type of W1 with wt ?t _ => exact ((ltac:(auto 8 with reify) : vni t f g) v W1) end end.
  - match goal with |- ?f (?g ?v) = _ => match type of W2 with wt ?t _ => exact ((ltac:(auto 8 with reify) : vni t f g) v W2) end end.
Qed.
#[export] Hint Resolve inv_Affirmation typed_Affirmation vni_Affirmation : reify.

Lemma kind_Declarations : kind_of (TRef "Declarations") = KStruct fields_Declarations. Proof. reflexivity. Qed.
Lemma wt_Declarations_inv v : wt (TRef "Declarations") v -> exists vs, v = VStruct vs /\ zip_all (fun f x => wt (f_ty f) x) vs fields_Declarations.
Proof.
  intros W. destruct v; cbn [wt] in W; rewrite kind_Declarations in W; try discriminate; try contradiction. eauto.
Qed.
Lemma inv_Declarations : inv reify_Declarations reflect_Declarations.
Proof. intros x; unfold reify_Declarations; cbn [reflect_Declarations]; rr; destruct x; reflexivity. Qed.
Lemma typed_Declarations : typed (TRef "Declarations") reify_Declarations.
Proof.
  intros x; unfold reify_Declarations; cbn [wt]; rewrite kind_Declarations; unfold fields_Declarations; cbn [zip_all f_ty]; fields_typed;
    match goal with |- wt ?t (?f ?x) => apply (ltac:(auto 8 with reify) : typed t f) end.
Qed.
Lemma vni_Declarations : vni (TRef "Declarations") reify_Declarations reflect_Declarations.
Proof.
  intros v W.
  apply wt_Declarations_inv in W as (vs & -> & W). unfold fields_Declarations in W.
  destruct vs as [|a0 vs]; [destruct W|]. destruct W as [W0 W]. cbn [f_ty] in W0.
  destruct vs as [|a1 vs]; [destruct W|]. destruct W as [W1 W]. cbn [f_ty] in W1.
  destruct vs as [|a2 vs]; [destruct W|]. destruct W as [W2 W]. cbn [f_ty] in W2.
  destruct vs as [|a3 vs]; [destruct W|]. destruct W as [W3 W]. cbn [f_ty] in W3.
  destruct vs as [|a4 vs]; [destruct W|]. destruct W as [W4 W]. cbn [f_ty] in W4.
  destruct vs as [|a5 vs]; [destruct W|]. destruct W as [W5 W]. cbn [f_ty] in W5.
  destruct vs as [|a6 vs]; [destruct W|]. destruct W as [W6 W]. cbn [f_ty] in W6.
  destruct vs as [|? ?]; [clear W|destruct W].
  cbn [reflect_Declarations]. unfold reify_Declarations. cbn [Declarations_Assessors Declarations_Attestations Declarations_Claims Declarations_Evidence Declarations_Targets Declarations_Affirmation Declarations_Signature]. fields_back.
  - match goal with |- ?f (?g ?v) = _ => match type of W0 with wt ?t _ => exact ((ltac:(auto 8 with reify) : vni t f g) v W0) end end.
  - match goal with |- ?f (?g ?v) = _ => match type of W1 with wt ?t _ => exact ((ltac:(auto 8 with reify) : vni t f g) v W1) end end.
  - match goal with |- ?f (?g ?v) = _ => match type of W2 with wt ?t _ => exact ((ltac:(auto 8 with reify) : vni t f g) v W2) end end.
  - match goal with |- ?f (?g ?v) = _ => match type of W3 with wt ?t _ => exact ((ltac:(auto 8 with reify) : vni t f g) v W3) end end.
  - match goal with |- ?f (?g ?v) = _ => match type of W4 with wt ?t _ => exact ((ltac:(auto 8 with reify) : vni t f g) v W4) end end.
  - match goal with |- ?f (?g ?v) = _ => match type of W5 with wt ?t _ => exact ((ltac:(auto 8 with reify) : vni t f g) v W5) end end.
  - match goal with |- ?f (?g ?v) = _ => match type of W6 with wt ?t _ => exact ((ltac:(auto 8 with reify) : vni t f g) v W6) end end.
Qed.
#[export] Hint Resolve inv_Declarations typed_Declarations vni_Declarations : reify.

Lemma kind_StandardRequirement : kind_of (TRef "StandardRequirement") = KStruct fields_StandardRequirement. Proof. reflexivity. Qed.
Lemma wt_StandardRequirement_inv v : wt (TRef "StandardRequirement") v -> exists vs, v = VStruct vs /\ zip_all (fun f x => wt (f_ty f) x) vs fields_StandardRequirement.
Proof.
  intros W. destruct v; cbn [wt] in W; rewrite kind_StandardRequirement in W; try discriminate; try contradiction. eauto.
Qed.
Lemma inv_StandardRequirement : inv reify_StandardRequirement reflect_StandardRequirement.
Proof. intros x; unfold reify_StandardRequirement; cbn [reflect_StandardRequirement]; rr; destruct x; reflexivity. Qed.
Lemma typed_StandardRequirement : typed (TRef "StandardRequirement") reify_StandardRequirement.
Proof.
  intros x; unfold reify_StandardRequirement; cbn [wt]; rewrite kind_StandardRequirement; unfold fields_StandardRequirement; cbn [zip_all f_ty]; fields_typed;
    match goal with |- wt ?t (?f ?x) => apply (ltac:(auto 8 with reify) : typed t f) end.
Qed.
Lemma vni_StandardRequirement : vni (TRef "StandardRequirement") reify_StandardRequirement reflect_StandardRequirement.
Proof.
  intros v W.
  apply wt_StandardRequirement_inv in W as (vs & -> & W). unfold fields_StandardRequirement in W.
  destruct vs as [|a0 vs]; [destruct W|]. destruct W as [W0 W]. cbn [f_ty] in W0.
  destruct vs as [|a1 vs]; [destruct W|]. destruct W as [W1 W]. cbn [f_ty] in W1.
  destruct vs as [|a2 vs]; [destruct W|]. destruct W as [W2 W]. cbn [f_ty] in W2.
  destruct vs as [|a3 vs]; [destruct W|]. destruct W as [W3 W]. cbn [f_ty] in W3.
  destruct vs as [|a4 vs]; [destruct W|]. destruct W as [W4 W]. cbn [f_ty] in W4.
  destruct vs as [|a5 vs]; [destruct W|]. destruct W as [W5 W]. cbn [f_ty] in W5.
  destruct vs as [|a6 vs]; [destruct W|]. destruct W as [W6 W]. cbn [f_ty] in W6.
  destruct vs as [|a7 vs]; [destruct W|]. destruct W as [W7 W]. cbn [f_ty] in W7.
  destruct vs as [|a8 vs]; [destruct W|]. destruct W as [W8 W]. cbn [f_ty] in W8.
  destruct vs as [|? ?]; [clear W|destruct W].
  cbn [reflect_StandardRequirement]. unfold reify_StandardRequirement. cbn [StandardRequirement_BOMRef StandardRequirement_Identifier StandardRequirement_Title StandardRequirement_Text StandardRequirement_Descriptions StandardRequirement_OpenCRE StandardRequirement_Parent StandardRequirement_Properties StandardRequirement_ExternalReferences]. fields_back.
  - match goal with |- ?f (?g ?v) = _ => match type of W0 with wt ?t _ => exact ((ltac:(auto 8 with reify) : vni t f g) v W0) end end.
  - match goal with |- ?f (?g ?v) = _ => match type of W1 with wt ?t _ => exact ((ltac:(auto 8 with reify) : vni t f g) v W1) end end.
  - match goal with |- ?f (?g ?v) = _ => match type of W2 with wt ?t _ => exact ((ltac:(auto 8 with reify) : vni t f g) v W2) end end.
  - match goal with |- ?f (?g ?v) = _ => match type of W3 with wt ?t _ => exact ((ltac:(auto 8 with reify) : vni t f g) v W3) end end.
  - match goal with |- ?f (?g ?v) = _ => match type of W4 with wt ?t _ => exact ((ltac:(auto 8 with reify) : vni t f g) v W4) end end.
  - match goal with |- ?f (?g ?v) = _ => match type of W5 with wt ?t _ => exact ((ltac:(auto 8 with reify) : vni t f g) v W5) end end.
  - match goal with |- ?f (?g ?v) = _ => match type of W6 with wt ?t _ => exact ((ltac:(auto 8 with reify) : vni t f g) v W6) end end.
  - match goal with |- ?f (?g ?v) = _ => match type of W7 with wt ?t _ => exact ((ltac:(auto 8 with reify) : vni t f g) v W7) end end.
  - match goal with |- ?f (?g ?v) = _ => match type of W8 with wt ?t _ => exact ((ltac:(auto 8 with reify) : vni t f g) v W8) end end.
Qed.
#[export] Hint Resolve inv_StandardRequirement typed_StandardRequirement vni_StandardRequirement : reify.

Lemma kind_StandardLevel : kind_of (TRef "StandardLevel") = KStruct fields_StandardLevel. Proof. reflexivity. Qed.
Lemma wt_StandardLevel_inv v : wt (TRef "StandardLevel") v -> exists vs, v = VStruct vs /\ zip_all (fun f x => wt (f_ty f) x) vs fields_StandardLevel.
Proof.
  intros W. destruct v; cbn [wt] in W; rewrite kind_StandardLevel in W; try discriminate; try contradiction. eauto.
Qed.
Lemma inv_StandardLevel : inv reify_StandardLevel reflect_StandardLevel.
Proof. intros x; unfold reify_StandardLevel; cbn [reflect_StandardLevel]; rr; destruct x; reflexivity. Qed.
Lemma typed_StandardLevel : typed (TRef "StandardLevel") reify_StandardLevel.
Proof.
  intros x; unfold reify_StandardLevel; cbn [wt]; rewrite kind_StandardLevel; unfold fields_StandardLevel; cbn [zip_all f_ty]; fields_typed;
    match goal with |- wt ?t (?f ?x) => apply (ltac:(auto 8 with reify) : typed t f) end.
Qed.
Lemma vni_StandardLevel : vni (TRef "StandardLevel") reify_StandardLevel reflect_StandardLevel.
Proof.
  intros v W.
  apply wt_StandardLevel_inv in W as (vs & -> & W). unfold fields_StandardLevel in W.
  destruct vs as [|a0 vs]; [destruct W|]. destruct W as [W0 W]. cbn [f_ty] in W0.
  destruct vs as [|a1 vs]; [destruct W|]. destruct W as [W1 W]. cbn [f_ty] in W1.
  destruct vs as [|a2 vs]; [destruct W|]. destruct W as [W2 W]. cbn [f_ty] in W2.
  destruct vs as [|a3 vs]; [destruct W|]. destruct W as [W3 W]. cbn [f_ty] in W3.
  destruct vs as [|a4 vs]; [destruct W|]. destruct W as [W4 W]. cbn [f_ty] in W4.
  destruct vs as [|? ?]; [clear W|destruct W].
  cbn [reflect_StandardLevel]. unfold reify_StandardLevel. cbn [StandardLevel_BOMRef StandardLevel_Identifier StandardLevel_Title StandardLevel_Description StandardLevel_Requirements]. fields_back.
  - match goal with |- ?f (?g ?v) = _ => match type of W0 with wt ?t _ => exact ((ltac:(auto 8 with reify) : vni t f g) v W0) end end.
  - match goal with |- ?f (?g ?v) = _ => match type of W1 with wt ?t _ => exact ((ltac:(auto 8 with reify) : vni t f g) v W1) end end.
  - match goal with |- ?f (?g ?v) = _ => match type of W2 with wt ?t _ => exact ((ltac:(auto 8 with reify) : vni t f g) v W2) end end.
  - match goal with |- ?f (?g ?v) = _ => match type of W3 with wt ?t _ => exact ((ltac:(auto 8 with reify) : vni t f g) v W3) end end.
  - match goal with |- ?f (?g ?v) = _ => match type of W4 with wt ?t _ => exact ((ltac:(auto 8 with reify) : vni t f g) v W4) end end.
Qed.
#[export] Hint Resolve inv_StandardLevel typed_StandardLevel vni_StandardLevel : reify.

Lemma kind_StandardDefinition : kind_of (TRef "StandardDefinition") = KStruct fields_StandardDefinition. Proof. reflexivity. Qed.
Lemma wt_StandardDefinition_inv v : wt (TRef "StandardDefinition") v -> exists vs, v = VStruct vs /\ zip_all (fun f x => wt (f_ty f) x) vs fields_StandardDefinition.
Proof.
  intros W. destruct v; cbn [wt] in W; rewrite kind_StandardDefinition in W; try discriminate; try contradiction. eauto.
Qed.
Lemma inv_StandardDefinition : inv reify_StandardDefinition reflect_StandardDefinition.
Proof. intros x; unfold reify_StandardDefinition; cbn [reflect_StandardDefinition]; rr; destruct x; reflexivity. Qed.
Lemma typed_StandardDefinition : typed (TRef "StandardDefinition") reify_StandardDefinition.
Proof.
  intros x; unfold reify_StandardDefinition; cbn [wt]; rewrite kind_StandardDefinition; unfold fields_StandardDefinition; cbn [zip_all f_ty]; fields_typed;
    match goal with |- wt ?t (?f ?x) => apply (ltac:(auto 8 with reify) : typed t f) end.
Qed.
Lemma vni_StandardDefinition : vni (TRef "StandardDefinition") reify_StandardDefinition reflect_StandardDefinition.
Proof.
  intros v W.
  apply wt_StandardDefinition_inv in W as (vs & -> & W). unfold fields_StandardDefinition in W.
  destruct vs as [|a0 vs]; [destruct W|]. destruct W as [W0 W]. cbn [f_ty] in W0.
  destruct vs as [|a1 vs]; [destruct W|]. destruct W as [W1 W]. cbn [f_ty] in W1.
  destruct vs as [|a2 vs]; [destruct W|]. destruct W as [W2 W]. cbn [f_ty] in W2.
  destruct vs as [|a3 vs]; [destruct W|]. destruct W as [W3 W]. cbn [f_ty] in W3.
  destruct vs as [|a4 vs]; [destruct W|]. destruct W as [W4 W]. cbn [f_ty] in W4.
  destruct vs as [|a5 vs]; [destruct W|]. destruct W as [W5 W]. cbn [f_ty] in W5.
  destruct vs as [|a6 vs]; [destruct W|]. destruct W as [W6 W]. cbn [f_ty] in W6.
  destruct vs as [|a7 vs]; [destruct W|]. destruct W as [W7 W]. cbn [f_ty] in W7.
  destruct vs as [|a8 vs]; [destruct W|]. destruct W as [W8 W]. cbn [f_ty] in W8.
  destruct vs as [|? ?]; [clear W|destruct W].
  cbn [reflect_StandardDefinition]. unfold reify_StandardDefinition. cbn [StandardDefinition_BOMRef StandardDefinition_Name StandardDefinition_Version StandardDefinition_Description StandardDefinition_Owner StandardDefinition_Requirements StandardDefinition_Levels StandardDefinition_ExternalReferences StandardDefinition_Signature]. fields_back.
  - match goal with |- ?f (?g ?v) = _ => match type of W0 with wt ?t _ => exact ((ltac:(auto 8 with reify) : vni t f g) v W0) end end.
  - match goal with |- ?f (?g ?v) = _ => match type of W1 with wt ?t _ => exact ((ltac:(auto 8 with reify) : vni t f g) v W1) end end.
  - match goal with |- ?f (?g ?v) = _ => match type of W2 with wt ?t _ => exact ((ltac:(auto 8 with reify) : vni t f g) v W2) end end.
  - match goal with |- ?f (?g ?v) = _ => match type of W3 with wt ?t _ => exact ((ltac:(auto 8 with reify) : vni t f g) v W3) end end.
  - match goal with |- ?f (?g ?v) = _ => match type of W4 with wt ?t _ => exact ((ltac:(auto 8 with reify) : vni t f g) v W4) end end.
  - match goal with |- ?f (?g ?v) = _ => match type of W5 with wt ?t _ => exact ((ltac:(auto 8 with reify) : vni t f g) v W5) end end.
  - match goal with |- ?f (?g ?v) = _ => match type of W6 with wt ?t _ => exact ((ltac:(auto 8 with reify) : vni t f g) v W6) end end.
  - match goal with |- ?f (?g ?v) = _ => match type of W7 with wt ?t _ => exact ((ltac:(auto 8 with reify) : vni t f g) v W7) end end.
  - match goal with |- ?f (?g ?v) = _ => match type of W8 with wt ?t _ => exact ((ltac:(auto 8 with reify) : vni t f g) v W8) end end.
Qed.
#[export] Hint Resolve inv_StandardDefinition typed_StandardDefinition vni_StandardDefinition : reify.

Lemma kind_PriorityApplication : kind_of (TRef "PriorityApplication") = KStruct fields_PriorityApplication. Proof. reflexivity. Qed.
Lemma wt_PriorityApplication_inv v : wt (TRef "PriorityApplication") v -> exists vs, v = VStruct vs /\ zip_all (fun f x => wt (f_ty f) x) vs fields_PriorityApplication.
Proof.
  intros W. destruct v; cbn [wt] in W; rewrite kind_PriorityApplication in W; try discriminate; try contradiction. eauto.
Qed.
Lemma inv_PriorityApplication : inv reify_PriorityApplication reflect_PriorityApplication.
Proof. intros x; unfold reify_PriorityApplication; cbn [reflect_PriorityApplication]; rr; destruct x; reflexivity. Qed.
Lemma typed_PriorityApplication : typed (TRef "PriorityApplication") reify_PriorityApplication.
Proof.
  intros x; unfold reify_PriorityApplication; cbn [wt]; rewrite kind_PriorityApplication; unfold fields_PriorityApplication; cbn [zip_all f_ty]; fields_typed;
    match goal with |- wt ?t (?f ?x) => apply (ltac:(auto 8 with reify) : typed t f) end.
Qed.
Lemma vni_PriorityApplication : vni (TRef "PriorityApplication") reify_PriorityApplication reflect_PriorityApplication.
Proof.
  intros v W.
  apply wt_PriorityApplication_inv in W as (vs & -> & W). unfold fields_PriorityApplication in W.
  destruct vs as [|a0 vs]; [destruct W|]. destruct W as [W0 W]. cbn [f_ty] in W0.
  destruct vs as [|a1 vs]; [destruct W|]. destruct W as [W1 W]. cbn [f_ty] in W1.
  destruct vs as [|a2 vs]; [destruct W|]. destruct W as [W2 W]. cbn [f_ty] in W2.
  destruct vs as [|? ?]; [clear W|destruct W].
  cbn [reflect_PriorityApplication]. unfold reify_PriorityApplication. cbn [PriorityApplication_ApplicationNumber PriorityApplication_Jurisdiction PriorityApplication_FilingDate]. fields_back.
  - match goal with |- ?f (?g ?v) = _ => match type of W0 with wt ?t _ => exact ((ltac:(auto 8 with reify) : vni t f g) v W0) end end.
  - match goal with |- ?f (?g ?v) = _ => match type of W1 with wt ?t _ => exact ((ltac:(auto 8 with reify) : vni t f g) v W1) end end.
  - match goal with |- ?f (?g ?v) = _ => match type of W2 with wt ?t _ => exact ((ltac:(auto 8 with reify) : vni t f g) v W2) end end.
Qed.
#[export] Hint Resolve inv_PriorityApplication typed_PriorityApplication vni_PriorityApplication : reify.

Lemma kind_Patent : kind_of (TRef "Patent") = KStruct fields_Patent. Proof. reflexivity. Qed.
Lemma wt_Patent_inv v : wt (TRef "Patent") v -> exists vs, v = VStruct vs /\ zip_all (fun f x => wt (f_ty f) x) vs fields_Patent.
Proof.
  intros W. destruct v; cbn [wt] in W; rewrite kind_Patent in W; try discriminate; try contradiction. eauto.
Qed.
Lemma inv_Patent : inv reify_Patent reflect_Patent.
Proof. intros x; unfold reify_Patent; cbn [reflect_Patent]; rr; destruct x; reflexivity. Qed.
Lemma typed_Patent : typed (TRef "Patent") reify_Patent.
Proof.
  intros x; unfold reify_Patent; cbn [wt]; rewrite kind_Patent; unfold fields_Patent; cbn [zip_all f_ty]; fields_typed;
    match goal with |- wt ?t (?f ?x) => apply (ltac:(auto 8 with reify) : typed t f) end.
Qed.
Lemma vni_Patent : vni (TRef "Patent") reify_Patent reflect_Patent.
Proof.
  intros v W.
  apply wt_Patent_inv in W as (vs & -> & W). unfold fields_Patent in W.
  destruct vs as [|a0 vs]; [destruct W|]. destruct W as [W0 W]. cbn [f_ty] in W0.
  destruct vs as [|a1 vs]; [destruct W|]. destruct W as [W1 W]. cbn [f_ty] in W1.
  destruct vs as [|a2 vs]; [destruct W|]. destruct W as [W2 W]. cbn [f_ty] in W2.
  destruct vs as [|a3 vs]; [destruct W|]. destruct W as [W3 W]. cbn [f_ty] in W3.
  destruct vs as [|a4 vs]; [destruct W|]. destruct W as [W4 W]. cbn [f_ty] in W4.
  destruct vs as [|a5 vs]; [destruct W|]. destruct W as [W5 W]. cbn [f_ty] in W5.
  destruct vs as [|a6 vs]; [destruct W|]. destruct W as [W6 W]. cbn [f_ty] in W6.
  destruct vs as [|a7 vs]; [destruct W|]. destruct W as [W7 W]. cbn [f_ty] in W7.
  destruct vs as [|a8 vs]; [destruct W|]. destruct W as [W8 W]. cbn [f_ty] in W8.
  destruct vs as [|a9 vs]; [destruct W|]. destruct W as [W9 W]. cbn [f_ty] in W9.
  destruct vs as [|a10 vs]; [destruct W|]. destruct W as [W10 W]. cbn [f_ty] in W10.
  destruct vs as [|a11 vs]; [destruct W|]. destruct W as [W11 W]. cbn [f_ty] in W11.
  destruct vs as [|a12 vs]; [destruct W|]. destruct W as [W12 W]. cbn [f_ty] in W12.
  destruct vs as [|a13 vs]; [destruct W|]. destruct W as [W13 W]. cbn [f_ty] in W13.
  destruct vs as [|? ?]; [clear W|destruct W].
  cbn [reflect_Patent]. unfold reify_Patent. cbn [Patent_BOMRef Patent_PatentNumber Patent_ApplicationNumber Patent_Jurisdiction Patent_PriorityApplication Patent_PublicationNumber Patent_Title Patent_Abstract Patent_FilingDate Patent_GrantDate Patent_PatentExpirationDate Patent_PatentLegalStatus Patent_PatentAssignee Patent_ExternalReferences]. fields_back.
  - match goal with |- ?f (?g ?v) = _ => match type of W0 with wt ?t _ => exact ((ltac:(auto 8 with reify) : vni t f g) v W0) end end.
  - match goal with |- ?f (?g ?v) = _ => match type of W1 with wt ?t _ => exact ((ltac:(auto 8 with reify) : vni t f g) v W1) end end.
  - match goal with |- ?f (?g ?v) = _ => match type of W2 with wt ?t _ => exact ((ltac:(auto 8 with reify) : vni t f g) v W2) end end.
  - match goal with |- ?f (?g ?v) = _ => match type of W3 with wt ?t _ => exact ((ltac:(auto 8 with reify) : vni t f g) v W3) end end.
  - match goal with |- ?f (?g ?v) = _ => match type of W4 with wt ?t _ => exact ((ltac:(auto 8 with reify) : vni t f g) v W4) end end.
  - match goal with |- ?f (?g ?v) = _ => match type of W5 with wt ?t _ => exact ((ltac:(auto 8 with reify) : vni t f g) v W5) end end.
  - match goal with |- ?f (?g ?v) = _ => match type of W6 with wt ?t _ => exact ((ltac:(auto 8 with reify) : vni t f g) v W6) end end.
  - match goal with |- ?f (?g ?v) = _ => match type of W7 with wt ?t _ => exact ((ltac:(auto 8 with reify) : vni t f g) v W7) end end.
  - match goal with |- ?f (?g ?v) = _ => match type of W8 with wt ?t _ => exact ((ltac:(auto 8 with reify) : vni t f g) v W8) end end.
  - match goal with |- ?f (?g ?v) = _ => match type of W9 with wt ?t _ => exact ((ltac:(auto 8 with reify) : vni t f g) v W9) end end.
  - match goal with |- ?f (?g ?v) = _ => match type of W10 with wt ?t _ => exact ((ltac:(auto 8 with reify) : vni t f g) v W10) end end.
  - match goal with |- ?f (?g ?v) = _ => match type of W11 with wt ?t _ => exact ((ltac:(auto 8 with reify) : vni t f g) v W11) end end.
  - match goal with |- ?f (?g ?v) = _ => match type of W12 with wt ?t _ => exact ((ltac:(auto 8 with reify) : vni t f g) v W12) end end.
  - match goal with |- ?f (?g ?v) = _ => match type of W13 with wt ?t _ => exact ((ltac:(auto 8 with reify) : vni t f g) v W13) end end.
Qed.
#[export] Hint Resolve inv_Patent typed_Patent vni_Patent : reify.

Lemma kind_PatentFamily : kind_of (TRef "PatentFamily") = KStruct fields_PatentFamily. Proof. reflexivity. Qed.
Lemma wt_PatentFamily_inv v : wt (TRef "PatentFamily") v -> exists vs, v = VStruct vs /\ zip_all (fun f x => wt (f_ty f) x) vs fields_PatentFamily.
Proof.
  intros W. destruct v; cbn [wt] in W; rewrite kind_PatentFamily in W; try discriminate; try contradiction. eauto.
Qed.
Lemma inv_PatentFamily : inv reify_PatentFamily reflect_PatentFamily.
Proof. intros x; unfold reify_PatentFamily; cbn [reflect_PatentFamily]; rr; destruct x; reflexivity. Qed.
Lemma typed_PatentFamily : typed (TRef "PatentFamily") reify_PatentFamily.
Proof.
  intros x; unfold reify_PatentFamily; cbn [wt]; rewrite kind_PatentFamily; unfold fields_PatentFamily; cbn [zip_all f_ty]; fields_typed;
    match goal with |- wt ?t (?f ?x) => apply (ltac:(auto 8 with reify) : typed t f) end.
Qed.
Lemma vni_PatentFamily : vni (TRef "PatentFamily") reify_PatentFamily reflect_PatentFamily.
Proof.
  intros v W.
  apply wt_PatentFamily_inv in W as (vs & -> & W). unfold fields_PatentFamily in W.
  destruct vs as [|a0 vs]; [destruct W|]. destruct W as [W0 W]. cbn [f_ty] in W0.
  destruct vs as [|a1 vs]; [destruct W|]. destruct W as [W1 W]. cbn [f_ty] in W1.
  destruct vs as [|a2 vs]; [destruct W|]. destruct W as [W2 W]. cbn [f_ty] in W2.
  destruct vs as [|a3 vs]; [destruct W|]. destruct W as [W3 W]. cbn [f_ty] in W3.
  destruct vs as [|a4 vs]; [destruct W|]. destruct W as [W4 W]. cbn [f_ty] in W4.
  destruct vs as [|? ?]; [clear W|destruct W].
  cbn [reflect_PatentFamily]. unfold reify_PatentFamily. cbn [PatentFamily_BOMRef PatentFamily_FamilyID PatentFamily_PriorityApplication PatentFamily_Members PatentFamily_ExternalReferences]. fields_back.
  - match goal with |- ?f (?g ?v) = _ => match type of W0 with wt ?t _ => exact ((ltac:(auto 8 with reify) : vni t f g) v W0) end end.
  - match goal with |- ?f (?g ?v) = _ => match type of W1 with wt ?t _ => exact ((ltac:(auto 8 with reify) : vni t f g) v W1) end end.
  - match goal with |- ?f (?g ?v) = _ => match type of W2 with wt ?t _ => exact ((ltac:(auto 8 with reify) : vni t f g) v W2) end end.
  - match goal with |- ?f (?g ?v) = _ => match type of W3 with wt ?t _ => exact ((ltac:(auto 8 with reify) : vni t f g) v W3) end end.
  - match goal with |- ?f (?g ?v) = _ => match type of W4 with wt ?t _ => exact ((ltac:(auto 8 with reify) : vni t f g) v W4) end end.
Qed.
#[export] Hint Resolve inv_PatentFamily typed_PatentFamily vni_PatentFamily : reify.

Lemma kind_PatentChoice : kind_of (TRef "PatentChoice") = KStruct fields_PatentChoice. Proof. reflexivity. Qed.
Lemma wt_PatentChoice_inv v : wt (TRef "PatentChoice") v -> exists vs, v = VStruct vs /\ zip_all (fun f x => wt (f_ty f) x) vs fields_PatentChoice.
Proof.
  intros W. destruct v; cbn [wt] in W; rewrite kind_PatentChoice in W; try discriminate; try contradiction. eauto.
Qed.
Lemma inv_PatentChoice : inv reify_PatentChoice reflect_PatentChoice.
Proof. intros x; unfold reify_PatentChoice; cbn [reflect_PatentChoice]; rr; destruct x; reflexivity. Qed.
Lemma typed_PatentChoice : typed (TRef "PatentChoice") reify_PatentChoice.
Proof.
  intros x; unfold reify_PatentChoice; cbn [wt]; rewrite kind_PatentChoice; unfold fields_PatentChoice; cbn [zip_all f_ty]; fields_typed;
    match goal with |- wt ?t (?f ?x) => apply (ltac:(auto 8 with reify) : typed t f) end.
Qed.
Lemma vni_PatentChoice : vni (TRef "PatentChoice") reify_PatentChoice reflect_PatentChoice.
Proof.
  intros v W.
  apply wt_PatentChoice_inv in W as (vs & -> & W). unfold fields_PatentChoice in W.
  destruct vs as [|a0 vs]; [destruct W|]. destruct W as [W0 W]. cbn [f_ty] in W0.
  destruct vs as [|a1 vs]; [destruct W|]. destruct W as [W1 W]. cbn [f_ty] in W1.
  destruct vs as [|? ?]; [clear W|destruct W].
  cbn [reflect_PatentChoice]. unfold reify_PatentChoice. cbn [PatentChoice_Patent PatentChoice_PatentFamily]. fields_back.
  - match goal with |- ?f (?g ?v) = _ => match type of W0 with wt ?t _ => exact ((ltac:(auto 8 with reify) : vni t f g) v W0) end end.
  - match goal with |- ?f (?g ?v) = _ => match type of W1 with wt ?t _ => exact ((ltac:(auto 8 with reify) : vni t f g) v W1) end end.
Qed.
#[export] Hint Resolve inv_PatentChoice typed_PatentChoice vni_PatentChoice : reify.

Lemma kind_Definitions : kind_of (TRef "Definitions") = KStruct fields_Definitions. Proof. reflexivity. Qed.
Lemma wt_Definitions_inv v : wt (TRef "Definitions") v -> exists vs, v = VStruct vs /\ zip_all (fun f x => wt (f_ty f) x) vs fields_Definitions.
Proof.
  intros W. destruct v; cbn [wt] in W; rewrite kind_Definitions in W; try discriminate; try contradiction. eauto.
Qed.
Lemma inv_Definitions : inv reify_Definitions reflect_Definitions.
Proof. intros x; unfold reify_Definitions; cbn [reflect_Definitions]; rr; destruct x; reflexivity. Qed.
Lemma typed_Definitions : typed (TRef "Definitions") reify_Definitions.
Proof.
  intros x; unfold reify_Definitions; cbn [wt]; rewrite kind_Definitions; unfold fields_Definitions; cbn [zip_all f_ty]; fields_typed;
    match goal with |- wt ?t (?f ?x) => apply (ltac:(auto 8 with reify) : typed t f) end.
Qed.
Lemma vni_Definitions : vni (TRef "Definitions") reify_Definitions reflect_Definitions.
Proof.
  intros v W.
  apply wt_Definitions_inv in W as (vs & -> & W). unfold fields_Definitions in W.
  destruct vs as [|a0 vs]; [destruct W|]. destruct W as [W0 W]. cbn [f_ty] in W0.
  destruct vs as [|a1 vs]; [destruct W|]. destruct W as [W1 W]. cbn [f_ty] in W1.
  destruct vs as [|? ?]; [clear W|destruct W].
  cbn [reflect_Definitions]. unfold reify_Definitions. cbn [Definitions_Standards Definitions_Patents]. fields_back.
  - match goal with |- ?f (?g ?v) = _ => match type of W0 with wt ?t _ => exact ((ltac:(auto 8 with reify) : vni t f g) v W0) end end.
  - match goal with |- ?f (?g ?v) = _ => match type of W1 with wt ?t _ => exact ((ltac:(auto 8 with reify) : vni t f g) v W1) end end.
Qed.
#[export] Hint Resolve inv_Definitions typed_Definitions vni_Definitions : reify.

Lemma kind_Citation : kind_of (TRef "Citation") = KStruct fields_Citation. Proof. reflexivity. Qed.
Lemma wt_Citation_inv v : wt (TRef "Citation") v -> exists vs, v = VStruct vs /\ zip_all (fun f x => wt (f_ty f) x) vs fields_Citation.
Proof.
  intros W. destruct v; cbn [wt] in W; rewrite kind_Citation in W; try discriminate; try contradiction. eauto.
Qed.
Lemma inv_Citation : inv reify_Citation reflect_Citation.
Proof. intros x; unfold reify_Citation; cbn [reflect_Citation]; rr; destruct x; reflexivity. Qed.
Lemma typed_Citation : typed (TRef "Citation") reify_Citation.
Proof.
  intros x; unfold reify_Citation; cbn [wt]; rewrite kind_Citation; unfold fields_Citation; cbn [zip_all f_ty]; fields_typed;
    match goal with |- wt ?t (?f ?x) => apply (ltac:(auto 8 with reify) : typed t f) end.
Qed.
Lemma vni_Citation : vni (TRef "Citation") reify_Citation reflect_Citation.
Proof.
  intros v W.
  apply wt_Citation_inv in W as (vs & -> & W). unfold fields_Citation in W.
  destruct vs as [|a0 vs]; [destruct W|]. destruct W as [W0 W]. cbn [f_ty] in W0.
  destruct vs as [|a1 vs]; [destruct W|]. destruct W as [W1 W]. cbn [f_ty] in W1.
  destruct vs as [|a2 vs]; [destruct W|]. destruct W as [W2 W]. cbn [f_ty] in W2.
  destruct vs as [|a3 vs]; [destruct W|]. destruct W as [W3 W]. cbn [f_ty] in W3.
  destruct vs as [|a4 vs]; [destruct W|]. destruct W as [W4 W]. cbn [f_ty] in W4.
  destruct vs as [|a5 vs]; [destruct W|]. destruct W as [W5 W]. cbn [f_ty] in W5.
  destruct vs as [|a6 vs]; [destruct W|]. destruct W as [W6 W]. cbn [f_ty] in W6.
  destruct vs as [|a7 vs]; [destruct W|]. destruct W as [W7 W]. cbn [f_ty] in W7.
  destruct vs as [|? ?]; [clear W|destruct W].
  cbn [reflect_Citation]. unfold reify_Citation. cbn [Citation_BOMRef Citation_Pointers Citation_Expressions Citation_Timestamp Citation_AttributedTo Citation_Process Citation_Note Citation_Signature]. fields_back.
  - match goal with |- ?f (?g ?v) = _ => match type of W0 with wt ?t _ => exact ((ltac:(auto 8 with reify) : vni t f g) v W0) end end.
  - match goal with |- ?f (?g ?v) = _ => match type of W1 with wt ?t _ => exact ((ltac:(auto 8 with reify) : vni t f g) v W1) end end.
  - match goal with |- ?f (?g ?v) = _ => match type of W2 with wt ?t _ => exact ((ltac:(auto 8 with reify) : vni t f g) v W2) end end.
  - match goal with |- ?f (?g ?v) = _ => match type of W3 with wt ?t _ => exact ((ltac:(auto 8 with reify) : vni t f g) v W3) end end.
  - match goal with |- ?f (?g ?v) = _ => match type of W4 with wt ?t _ => exact ((ltac:(auto 8 with reify) : vni t f g) v W4) end end.
  - match goal with |- ?f (?g ?v) = _ => match type of W5 with wt ?t _ => exact ((ltac:(auto 8 with reify) : vni t f g) v W5) end end.
  - match goal with |- ?f (?g ?v) = _ => match type of W6 with wt ?t _ => exact ((ltac:(auto 8 with reify) : vni t f g) v W6) end end.
  - match goal with |- ?f (?g ?v) = _ => match type of W7 with wt ?t _ => exact ((ltac:(auto 8 with reify) : vni t f g) v W7) end end.
Qed.
#[export] Hint Resolve inv_Citation typed_Citation vni_Citation : reify.

Lemma kind_BOM : kind_of (TRef "BOM") = KStruct fields_BOM. Proof. reflexivity. Qed.
Lemma wt_BOM_inv v : wt (TRef "BOM") v -> exists vs, v = VStruct vs /\ zip_all (fun f x => wt (f_ty f) x) vs fields_BOM.
Proof.
  intros W. destruct v; cbn [wt] in W; rewrite kind_BOM in W; try discriminate; try contradiction. eauto.
Qed.
Lemma inv_BOM : inv reify_BOM reflect_BOM.
Proof. intros x; unfold reify_BOM; cbn [reflect_BOM]; rr; destruct x; reflexivity. Qed.
Lemma typed_BOM : typed (TRef "BOM") reify_BOM.
Proof.
  intros x; unfold reify_BOM; cbn [wt]; rewrite kind_BOM; unfold fields_BOM; cbn [zip_all f_ty]; fields_typed;
    match goal with |- wt ?t (?f ?x) => apply (ltac:(auto 8 with reify) : typed t f) end.
Qed.
Lemma vni_BOM : vni (TRef "BOM") reify_BOM reflect_BOM.
Proof.
  intros v W.
  apply wt_BOM_inv in W as (vs & -> & W). unfold fields_BOM in W.
  destruct vs as [|a0 vs]; [destruct W|]. destruct W as [W0 W]. cbn [f_ty] in W0.
  destruct vs as [|a1 vs]; [destruct W|]. destruct W as [W1 W]. cbn [f_ty] in W1.
  destruct vs as [|a2 vs]; [destruct W|]. destruct W as [W2 W]. cbn [f_ty] in W2.
  destruct vs as [|a3 vs]; [destruct W|]. destruct W as [W3 W]. cbn [f_ty] in W3.
  destruct vs as [|a4 vs]; [destruct W|]. destruct W as [W4 W]. cbn [f_ty] in W4.
  destruct vs as [|a5 vs]; [destruct W|]. destruct W as [W5 W]. cbn [f_ty] in W5.
  destruct vs as [|a6 vs]; [destruct W|]. destruct W as [W6 W]. cbn [f_ty] in W6.
  destruct vs as [|a7 vs]; [destruct W|]. destruct W as [W7 W]. cbn [f_ty] in W7.
  destruct vs as [|a8 vs]; [destruct W|]. destruct W as [W8 W]. cbn [f_ty] in W8.
  destruct vs as [|a9 vs]; [destruct W|]. destruct W as [W9 W]. cbn [f_ty] in W9.
  destruct vs as [|a10 vs]; [destruct W|]. destruct W as [W10 W]. cbn [f_ty] in W10.
  destruct vs as [|a11 vs]; [destruct W|]. destruct W as [W11 W]. cbn [f_ty] in W11.
  destruct vs as [|a12 vs]; [destruct W|]. destruct W as [W12 W]. cbn [f_ty] in W12.
  destruct vs as [|a13 vs]; [destruct W|]. destruct W as [W13 W]. cbn [f_ty] in W13.
  destruct vs as [|a14 vs]; [destruct W|]. destruct W as [W14 W]. cbn [f_ty] in W14.
  destruct vs as [|a15 vs]; [destruct W|]. destruct W as [W15 W]. cbn [f_ty] in W15.
  destruct vs as [|a16 vs]; [destruct W|]. destruct W as [W16 W]. cbn [f_ty] in W16.
  destruct vs as [|a17 vs]; [destruct W|]. destruct W as [W17 W]. cbn [f_ty] in W17.
  destruct vs as [|a18 vs]; [destruct W|]. destruct W as [W18 W]. cbn [f_ty] in W18.
  destruct vs as [|a19 vs]; [destruct W|]. destruct W as [W19 W]. cbn [f_ty] in W19.
  destruct vs as [|a20 vs]; [destruct W|]. destruct W as [W20 W]. cbn [f_ty] in W20.
  destruct vs as [|? ?]; [clear W|destruct W].
  cbn [reflect_BOM]. unfold reify_BOM. cbn [BOM_XMLName BOM_XMLNS BOM_JSONSchema BOM_BOMFormat BOM_SpecVersion BOM_SerialNumber BOM_Version BOM_Metadata BOM_Components BOM_Services BOM_ExternalReferences BOM_Dependencies BOM_Compositions BOM_Properties BOM_Vulnerabilities BOM_Annotations BOM_Formulation BOM_Declarations BOM_Definitions BOM_Citations BOM_Signature]. fields_back.
  - match goal with |- ?f (?g ?v) = _ => match type of W0 with wt ?t _ => exact ((ltac:(auto 8 with reify) : vni t f g) v W0) end end.
  - match goal with |- ?f (?g ?v) = _ => match type of W1 with wt ?t _ => exact ((ltac:(auto 8 with reify) : vni t f g) v W1) end end.
  - match goal with |- ?f (?g ?v) = _ => match type of W2 with wt ?t _ => exact ((ltac:(auto 8 with reify) : vni t f g) v W2) end end.
  - match goal with |- ?f (?g ?v) = _ => match type of W3 with wt ?t _ => exact ((ltac:(auto 8 with reify) : vni t f g) v W3) end end.
  - match goal with |- ?f (?g ?v) = _ => match type of W4 with wt ?t _ => exact ((ltac:(auto 8 with reify) : vni t f g) v W4) end end.
  - match goal with |- ?f (?g ?v) = _ => match type of W5 with wt ?t _ => exact ((ltac:(auto 8 with reify) : vni t f g) v W5) end end.
  - match goal with |- ?f (?g ?v) = _ => match type of W6 with wt ?t _ => exact ((ltac:(auto 8 with reify) : vni t f g) v W6) end end.
  - match goal with |- ?f (?g ?v) = _ => match type of W7 with wt ?t _ => exact ((ltac:(auto 8 with reify) : vni t f g) v W7) end end.
  - match goal with |- ?f (?g ?v) = _ => match type of W8 with wt ?t _ => exact ((ltac:(auto 8 with reify) : vni t f g) v W8) end end.
  - match goal with |- ?f (?g ?v) = _ => match type of W9 with wt ?t _ => exact ((ltac:(auto 8 with reify) : vni t f g) v W9) end end.
  - match goal with |- ?f (?g ?v) = _ => match type of W10 with wt ?t _ => exact ((ltac:(auto 8 with reify) : vni t f g) v W10) end end.
  - match goal with |- ?f (?g ?v) = _ => match type of W11 with wt ?t _ => exact ((ltac:(auto 8 with reify) : vni t f g) v W11) end end.
  - match goal with |- ?f (?g ?v) = _ => match type of W12 with wt ?t _ => exact ((ltac:(auto 8 with reify) : vni t f g) v W12) end end.
  - match goal with |- ?f (?g ?v) = _ => match type of W13 with wt ?t _ => exact ((ltac:(auto 8 with reify) : vni t f g) v W13) end end.
  - match goal with |- ?f (?g ?v) = _ => match type of W14 with wt ?t _ => exact ((ltac:(auto 8 with reify) : vni t f g) v W14) end end.
  - match goal with |- ?f (?g ?v) = _ => match type of W15 with wt ?t _ => exact ((ltac:(auto 8 with reify) : vni t f g) v W15) end end.
  - match goal with |- ?f (?g ?v) = _ => match type of W16 with wt ?t _ => exact ((ltac:(auto 8 with reify) : vni t f g) v W16) end end.
  - match goal with |- ?f (?g ?v) = _ => match type of W17 with wt ?t _ => exact ((ltac:(auto 8 with reify) : vni t f g) v W17) end end.
  - match goal with |- ?f (?g ?v) = _ => match type of W18 with wt ?t _ => exact ((ltac:(auto 8 with reify) : vni t f g) v W18) end end.
  - match goal with |- ?f (?g ?v) = _ => match type of W19 with wt ?t _ => exact ((ltac:(auto 8 with reify) : vni t f g) v W19) end end.
  - match goal with |- ?f (?g ?v) = _ => match type of W20 with wt ?t _ => exact ((ltac:(auto 8 with reify) : vni t f g) v W20) end end.
Qed.
#[export] Hint Resolve inv_BOM typed_BOM vni_BOM : reify.

