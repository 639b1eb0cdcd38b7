(** Why encoding fails: an offence in what would be written, or the depth limit. *)
From Verif Require Import Base Types Univ TypeTable Wt Reify ReifyBase ReifyFacts Consts Version Numbers NumbersProofs Utf8 Utf8Proofs JsonModel JsonBack JsonProofs JsonHooks JsonHookPatent JsonRound JsonSpec JsonErrors JsonBom GobProofs.
From Coq Require Import Lia.
Local Open Scope string_scope.

Definition fails_as (esc : bool) (e : jerr) (p : ty * val) : Prop := jenc esc (fst p) (snd p) = Err e.
Definition blamed (esc : bool) (e : jerr) (ps : list (ty * val)) : Prop := exists p, In p ps /\ fails_as esc e p.

Lemma bind_err {E A B} (r : result E A) (f : A -> result E B) e : bind r f = Err e -> r = Err e \/ exists x, r = Ok x /\ f x = Err e.
Proof. destruct r as [x|e']; cbn; intros H; [right; eauto|left; congruence]. Qed.
Lemma members_blame esc e : forall fs vs, length vs = length fs -> enc_members esc fs vs (encs vs fs) = Err e -> blamed esc e (plain_parts fs vs).
Proof.
  induction fs as [|f fs IH]; intros [|v vs] L; try discriminate L; [discriminate|]. injection L as L. specialize (IH vs L). cbn [encs enc_members plain_parts].
  destruct (json_info f) as [[n om]|]; [|exact IH]. destruct (om && empty_value v)%bool; [exact IH|]. intros E. apply bind_err in E as [E|(o & _ & E)].
  - exists (f_ty f, v). split; [left; reflexivity|exact E].
  - apply bind_err in E as [E|(ms & _ & E)]; [|discriminate E]. destruct (IH E) as (p & I & P). exists p. split; [right; exact I|exact P].
Qed.
Lemma struct_blame esc e fs vs : length vs = length fs -> enc_struct esc fs vs (encs vs fs) = Err e -> blamed esc e (plain_parts fs vs).
Proof. intros L E. unfold enc_struct in E. apply bind_err in E as [E|(ms & _ & E)]; [|discriminate E]. apply members_blame; assumption. Qed.
Lemma blame1 esc e t v : jenc esc t v = Err e -> blamed esc e [(t, v)].
Proof. intros E. exists (t, v). split; [left; reflexivity|exact E]. Qed.

Lemma marshal_blame t h fs vs e : hooked_type t h fs -> zip_all (fun f x => wt (f_ty f) x) vs fs ->
  marshal h fs vs (encs vs fs) = Err e -> offence t (VStruct vs) \/ blamed true e (choice_parts h fs vs).
Proof.
  intros T W E. pose proof (zip_length _ _ _ W) as L. destruct (marshal_outcome t h fs vs T W) as [(O & _)|(O & _)]; [left; exact O|right].
  assert (K : h = HIKEv2 -> forall f rest, fs = f :: rest -> blamed true e (choice_parts h fs vs)).
  { intros -> f rest ->. pose proof (struct_blame true e _ _ L) as R.
    destruct vs as [|v vs]; [discriminate L|]. cbn [encs marshal choice_parts map] in *.
    destruct (nonempty v); [|exact (R E)]. apply blame1, E. }
  destruct T; try (eapply K; reflexivity); clear K.
  - unfold fields_EnvironmentVariableChoice in W. destruct vs as [|a [|b [|c vs]]]; cbn [zip_all f_ty] in W; try tauto. clear L.
    change (encs [a; b] fields_EnvironmentVariableChoice) with [fun esc => jenc esc (TPtr (TRef "Property")) a; fun esc => jenc esc TStr b] in E.
    change (choice_parts HEnvironmentVariable fields_EnvironmentVariableChoice [a; b]) with
      (if match a with VPtr (Some p) => negb (zero_value p) | _ => false end then [(TPtr (TRef "Property"), a)] else if nonempty b then [(TStr, b)] else []).
    rewrite marshal_env in E.
    destruct (match a with VPtr (Some p) => negb (zero_value p) | _ => false end); [apply blame1, E|].
    destruct (nonempty b); [apply blame1, E|discriminate E].
  - unfold fields_MLDatasetChoice in W. destruct vs as [|a [|b [|c vs]]]; cbn [zip_all f_ty] in W; try tauto. clear L.
    change (encs [a; b] fields_MLDatasetChoice) with [fun esc => jenc esc TStr a; fun esc => jenc esc (TPtr (TRef "ComponentData")) b] in E.
    change (choice_parts HDataset fields_MLDatasetChoice [a; b]) with
      (if nonempty a then [(TStr, a)] else if nonnil b then [(TPtr (TRef "ComponentData"), b)] else []).
    rewrite marshal_dataset in E.
    destruct (nonempty a) eqn:N.
    + change [fun esc : bool => jenc esc TStr a] with (encs [a] fields_mlDatasetChoiceRefJSON) in E. apply struct_blame in E; [exact E|reflexivity].
    + destruct (nonnil b); [apply blame1, E|discriminate E].
  - unfold fields_ToolsChoice in W. destruct vs as [|a [|b [|c [|d vs]]]]; cbn [zip_all f_ty] in W; try tauto. clear L.
    change (encs [a; b; c] fields_ToolsChoice) with [fun esc => jenc esc (TPtr (TSlice (TRef "Tool"))) a; fun esc => jenc esc (TPtr (TSlice (TRef "Component"))) b; fun esc => jenc esc (TPtr (TSlice (TRef "Service"))) c] in E.
    change (choice_parts HTools fields_ToolsChoice [a; b; c]) with
      (if nonnil a then [(TPtr (TSlice (TRef "Tool")), a)]
       else ((if nonnil b then [(TPtr (TSlice (TRef "Component")), b)] else []) ++ (if nonnil c then [(TPtr (TSlice (TRef "Service")), c)] else []))%list).
    cbn [marshal] in E. destruct W as (Wa & Wb & Wc & _).
    destruct (nonnil_cases _ _ Wa) as [(Na & Pa)|(Na & Ea)], (nonnil_cases _ _ Wb) as [(Nb & Pb)|(Nb & Eb)], (nonnil_cases _ _ Wc) as [(Nc & Pc)|(Nc & Ec)];
      rewrite Na, Nb, Nc in *; cbn [andb orb app] in *;
      try solve [exfalso; apply O; constructor; auto];
      try solve [apply blame1, E];
      try (change [fun esc : bool => jenc esc (TPtr (TSlice (TRef "Component"))) b; fun esc' : bool => jenc esc' (TPtr (TSlice (TRef "Service"))) c] with (encs [b; c] fields_toolsChoiceJSON) in E;
           apply struct_blame in E; [|reflexivity];
           change (plain_parts fields_toolsChoiceJSON [b; c]) with
             (if empty_value b then (if empty_value c then [] else [(TPtr (TSlice (TRef "Service")), c)])
              else (TPtr (TSlice (TRef "Component")), b) :: (if empty_value c then [] else [(TPtr (TSlice (TRef "Service")), c)])) in E;
           repeat match goal with H : points _ |- _ => destruct H as (? & ->) end; subst; cbn [empty_value] in E; exact E).
    exfalso. apply O. subst. apply off_tools_none.
  - unfold fields_EvidenceIdentityChoice in W. destruct vs as [|a [|b [|c vs]]]; cbn [zip_all f_ty] in W; try tauto. clear L.
    change (encs [a; b] fields_EvidenceIdentityChoice) with [fun esc => jenc esc (TPtr (TRef "EvidenceIdentity")) a; fun esc => jenc esc (TPtr (TSlice (TRef "EvidenceIdentity"))) b] in E.
    change (choice_parts HIdentity fields_EvidenceIdentityChoice [a; b]) with
      (if nonnil a then [(TPtr (TRef "EvidenceIdentity"), a)] else if nonnil b then [(TPtr (TSlice (TRef "EvidenceIdentity")), b)] else []).
    cbn [marshal] in E. destruct W as (Wa & Wb & _).
    destruct (nonnil_cases _ _ Wa) as [(Na & Pa)|(Na & Ea)], (nonnil_cases _ _ Wb) as [(Nb & Pb)|(Nb & Eb)]; rewrite Na, Nb in *; cbn [andb] in *;
      [exfalso; apply O; constructor; auto|apply blame1, E|apply blame1, E|discriminate E].
  - pose proof (struct_blame true e _ _ L) as R. unfold fields_License in W.
    destruct vs as [|a [|b [|c vs]]]; cbn [zip_all f_ty] in W; try tauto. destruct W as (_ & Wb & Wc & _).
    destruct (wt_str b Wb) as (sb & ->). destruct (wt_str c Wc) as (sc & ->).
    cbn [marshal choice_parts] in *. unfold nonempty in E. cbn [str_of] in E.
    destruct (String.eqb_spec sb "") as [Eb|Nb]; destruct (String.eqb_spec sc "") as [Ec|Nc]; subst; cbn [negb andb orb] in E.
    + exfalso. apply O, off_license_none.
    + exact (R E).
    + exact (R E).
    + exfalso. apply O. constructor; assumption.
  - unfold fields_CertificateState in W. destruct vs as [|a [|b [|c vs]]]; cbn [zip_all f_ty] in W; try tauto. clear L.
    change (encs [a; b] fields_CertificateState) with [fun esc => jenc esc (TPtr (TRef "PredefinedCertificateState")) a; fun esc => jenc esc (TPtr (TRef "CustomCertificateState")) b] in E.
    change (choice_parts HCertState fields_CertificateState [a; b]) with
      (if nonnil a then [(TPtr (TRef "PredefinedCertificateState"), a)] else if nonnil b then [(TPtr (TRef "CustomCertificateState"), b)] else []).
    rewrite marshal_state in E. destruct W as (Wa & Wb & _).
    destruct (nonnil_cases _ _ Wa) as [(Na & Pa)|(Na & Ea)], (nonnil_cases _ _ Wb) as [(Nb & Pb)|(Nb & Eb)]; rewrite Na, Nb in *; cbn [andb] in *;
      [exfalso; apply O; constructor; auto|apply blame1, E|apply blame1, E|discriminate E].
  - unfold fields_CertificateExtension in W. destruct vs as [|a [|b [|c vs]]]; cbn [zip_all f_ty] in W; try tauto. clear L.
    change (encs [a; b] fields_CertificateExtension) with [fun esc => jenc esc (TPtr (TRef "CommonCertificateExtension")) a; fun esc => jenc esc (TPtr (TRef "CustomCertificateExtension")) b] in E.
    change (choice_parts HCertExtension fields_CertificateExtension [a; b]) with
      (if nonnil a then [(TPtr (TRef "CommonCertificateExtension"), a)] else if nonnil b then [(TPtr (TRef "CustomCertificateExtension"), b)] else []).
    rewrite marshal_extension in E. destruct W as (Wa & Wb & _).
    destruct (nonnil_cases _ _ Wa) as [(Na & Pa)|(Na & Ea)], (nonnil_cases _ _ Wb) as [(Nb & Pb)|(Nb & Eb)]; rewrite Na, Nb in *; cbn [andb] in *;
      [exfalso; apply O; constructor; auto|apply blame1, E|apply blame1, E|discriminate E].
  - unfold fields_AsserterChoice in W. destruct vs as [|a [|b [|c [|d vs]]]]; cbn [zip_all f_ty] in W; try tauto. clear L.
    change (encs [a; b; c] fields_AsserterChoice) with [fun esc => jenc esc (TPtr (TRef "OrganizationalEntity")) a; fun esc => jenc esc (TPtr (TRef "OrganizationalContact")) b; fun esc => jenc esc (TPtr (TRef "BOMReference")) c] in E.
    change (choice_parts HAsserter fields_AsserterChoice [a; b; c]) with
      (if nonnil a then [(TPtr (TRef "OrganizationalEntity"), a)] else if nonnil b then [(TPtr (TRef "OrganizationalContact"), b)] else if nonnil c then [(TPtr (TRef "BOMReference"), c)] else []).
    cbn [marshal] in E.
    destruct (nonnil a); [|destruct (nonnil b); [|destruct (nonnil c); [|discriminate E]]]; (apply bind_err in E as [E|(o & _ & E)]; [apply blame1, E|discriminate E]).
  - unfold fields_PatentChoice in W. destruct vs as [|a [|b [|c vs]]]; cbn [zip_all f_ty] in W; try tauto. clear L.
    rewrite encs_patent in E.
    change (choice_parts HPatent fields_PatentChoice [a; b]) with
      (if nonnil a then [(TPtr (TRef "Patent"), a)] else if nonnil b then [(TPtr (TRef "PatentFamily"), b)] else []).
    rewrite marshal_patent in E. destruct (nonnil a); [apply blame1, E|]. destruct (nonnil b); [apply blame1, E|discriminate E].
Qed.

(** ** The whole value *)
Definition reason (t : ty) (v : val) (e : jerr) : Prop := (e = ETooDeep /\ (max_depth < nesting v)%N) \/ exists t' v', written t v t' v' /\ offence t' v'.
Lemma reason_part t v e p : In p (parts_of t v) -> (nesting (snd p) <= nesting v)%N -> reason (fst p) (snd p) e -> reason t v e.
Proof. destruct p as [t1 v1]. intros I N [(H & D)|(t' & v' & W & O)]; [left; split; [exact H|cbn [snd] in *; lia]|]. right. exists t', v'. split; [eapply written_part; eassumption|exact O]. Qed.
Definition explained (v : val) : Prop := forall t esc e, ok_ty t = true -> wt t v -> jenc esc t v = Err e -> reason t v e.
Lemma blamed_reason t fs vs ps esc e : kind_of t = KStruct fs -> zip_all (fun f x => wt (f_ty f) x) vs fs -> Forall explained vs ->
  (forall p, In p ps -> In p (combine (map f_ty fs) vs)) -> blamed esc e ps -> exists p, In p ps /\ (nesting (snd p) <= nesting (VStruct vs))%N /\ reason (fst p) (snd p) e.
Proof.
  intros K W D S ((t1, v1) & I & E). exists (t1, v1). split; [exact I|]. specialize (S _ I). split; [pose proof (nestings_in v1 vs (combine_vs _ _ _ S)) as B; change (nesting (VStruct vs)) with (N.succ (nestings vs)); cbn [snd]; lia|]. rewrite Forall_forall in D. refine (D v1 _ t1 esc e _ _ E).
  - exact (combine_vs _ _ _ S).
  - pose proof (struct_ok t fs K) as O. rewrite forallb_forall in O. apply in_combine_l in S. apply in_map_iff in S as (f & <- & If). apply O, If.
  - exact (zip_combine wt fs vs W _ S).
Qed.
Theorem all_explained v : explained v.
Proof.
  induction v as [s|z|b|f| |x IH| |l IH|vs IH] using val_induction; intros t esc e K W E.
  - discriminate E.
  - cbn [jenc] in E. destruct (marshal_hook t); discriminate E.
  - discriminate E.
  - right. exists t, (VFlt f). split; [apply written_here|]. destruct f; [discriminate E|constructor|constructor].
  - discriminate E.
  - cbn [wt] in W. destruct (kind_of t) as [| | | |t'| | |] eqn:Kt; try contradiction. destruct (kind_ptr t t' K Kt) as (-> & K').
    apply (reason_part _ _ _ (t', x)); [left; reflexivity|cbn; lia|]. exact (IH t' esc e K' W E).
  - discriminate E.
  - cbn [wt] in W. destruct (kind_of t) as [| | | | |t'| |] eqn:Kt; try contradiction.
    assert (Et : elem_ty t = t') by (unfold elem_ty; rewrite Kt; reflexivity).
    assert (K' : ok_ty t' = true) by (apply elem_ok_ok, (slice_ok t t' K Kt)).
    rewrite jenc_slice, Et in E. apply bind_err in E as [E|(os & _ & E)]; [|discriminate E].
    assert (G : exists x, In x l /\ reason t' x e).
    { clear -IH W E K'. revert W E. induction IH as [|x l Hx _ IHl]; intros W E; [discriminate E|]. destruct W as (W1 & W2). cbn [enc_elements] in E.
      apply bind_err in E as [E|(o & _ & E)]; [exists x; split; [left; reflexivity|exact (Hx t' esc e K' W1 E)]|].
      apply bind_err in E as [E|(os & _ & E)]; [|discriminate E]. destruct (IHl W2 E) as (y & I & R). exists y. split; [right; exact I|exact R]. }
    destruct G as (x & I & R). apply (reason_part _ _ _ (t', x)); [|pose proof (nestings_in x l I); change (nesting (VSlice (Some l))) with (N.succ (nestings l)); cbn [snd]; lia|exact R]. cbn [parts_of]. rewrite Et. apply (in_map (fun y => (t', y))), I.
  - cbn [wt] in W. destruct (kind_of t) as [| | | | | |fs|] eqn:Kt; try contradiction.
    rewrite jenc_struct, (fields_of_kind t fs Kt) in E.
    destruct (hook_cases t) as [H|[->|(h & fs' & H)]]; [|discriminate Kt|].
    + rewrite H in E. apply struct_blame in E; [|exact (zip_length _ _ _ W)].
      destruct (blamed_reason t fs vs _ esc e Kt W IH (fun p => plain_parts_sub p fs vs) E) as (p & I & N & R). apply (reason_part _ _ _ p); [|exact N|exact R].
      cbn [parts_of]. rewrite H, (fields_of_kind t fs Kt). exact I.
    + rewrite (hooked_kind _ _ _ H) in Kt. injection Kt as <-.
      assert (Eq : match marshal_hook t with HNone => enc_struct esc fs' vs (encs vs fs') | h' => scanned (marshal h' fs' vs (encs vs fs')) end
                  = scanned (marshal h fs' vs (encs vs fs'))) by (rewrite (hooked_marshal _ _ _ H); destruct H; reflexivity).
      rewrite Eq in E. clear Eq. unfold scanned in E. apply bind_err in E as [E|(o & Eo & E)].
      * apply (marshal_blame t h fs' vs e H W) in E as [O|E]; [right; exists t, (VStruct vs); split; [apply written_here|exact O]|].
        destruct (blamed_reason t fs' vs _ true e (hooked_kind _ _ _ H) W IH (fun p => choice_parts_sub h p fs' vs) E) as (p & I & N & R). apply (reason_part _ _ _ p); [|exact N|exact R].
        cbn [parts_of]. rewrite (hooked_marshal _ _ _ H), (hooked_fields _ _ _ H). exact I.
      * left. assert (S : Forall shallow vs) by (rewrite Forall_forall; intros; apply all_shallow).
        pose proof (marshal_depth t h fs' vs o H W S Eo) as Dp. change (nesting (VStruct vs)) with (N.succ (nestings vs)).
        unfold too_deep in E. destruct (N.ltb_spec max_depth (depth (erase o))); [split; [congruence|lia]|discriminate E].
Qed.

(** ** The BOM *)
Lemma why_fails esc b e : json_encode esc b = Err e -> (BOM_SpecVersion b < SpecVersion1_2)%Z \/
  (exists t v, written (TRef "BOM") (reify_BOM b) t v /\ offence t v) \/ (e = EMarshal ETooDeep /\ (max_depth < nesting (reify_BOM b))%N).
Proof.
  unfold json_encode. rewrite bom_to_json_eq. destruct (Z.ltb_spec (BOM_SpecVersion b) SpecVersion1_2); [left; assumption|]. intros E. right.
  destruct (jenc esc (TRef "BOM") (reify_BOM b)) as [o|e'] eqn:F; [discriminate E|]. injection E as <-.
  destruct (all_explained _ _ _ _ bom_ok (typed_BOM b) F) as [(-> & D)|X]; [right; split; [reflexivity|exact D]|left; exact X].
Qed.
