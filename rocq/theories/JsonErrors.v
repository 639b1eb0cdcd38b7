(** When encoding succeeds, and how deep the result is nested. *)
From Verif Require Import Base Types Univ TypeTable Wt Reify ReifyBase Consts LinkModel Version VersionProofs Numbers NumbersProofs Utf8 Utf8Proofs GobModel GobProofs JsonModel JsonBack JsonProofs JsonHooks JsonHookPatent JsonRound JsonSpec JsonLossless.
From Coq Require Import Lia.
Local Open Scope string_scope.

(** ** Depth *)
Definition depths (l : list json) : N := fold_right N.max 0%N (map depth l).
Definition nestings (l : list val) : N := fold_right N.max 0%N (map nesting l).
Definition mdepths (ms : list (string * out)) : N := fold_right N.max 0%N (map (fun m => depth (erase (snd m))) ms).
Lemma depth_obj ms : depth (erase (OObj ms)) = N.succ (mdepths ms).
Proof. cbn [erase depth]. unfold mdepths. rewrite map_map. reflexivity. Qed.
Lemma nestings_in x l : In x l -> (nesting x <= nestings l)%N.
Proof. induction l as [|y l IH]; [contradiction|]. unfold nestings in *. cbn. intros [->|H]; [lia|]. specialize (IH H). lia. Qed.

Definition shallow (v : val) : Prop := forall t esc o, wt t v -> jenc esc t v = Ok o -> (depth (erase o) <= nesting v)%N.

Lemma members_depth esc : forall fs vs es ms,
  Forall2 (fun v (e : encoded) => forall esc o, e esc = Ok o -> (depth (erase o) <= nesting v)%N) vs es ->
  enc_members esc fs vs es = Ok ms -> (mdepths ms <= nestings vs)%N.
Proof.
  induction fs as [|f fs IH]; intros vs es ms F E.
  - destruct F; injection E as <-; unfold mdepths, nestings; cbn; lia.
  - destruct F as [|v e vs es Fe F]; [injection E as <-; cbn; unfold mdepths; cbn; lia|].
    cbn [enc_members] in E. destruct (json_info f) as [[n om]|].
    + destruct (om && empty_value v)%bool.
      * specialize (IH _ _ _ F E). unfold nestings in *. cbn. lia.
      * apply bind_ok in E as (o & Eo & E). apply bind_ok in E as (ms' & Em & E). injection E as <-.
        specialize (IH _ _ _ F Em). apply Fe in Eo. unfold mdepths, nestings in *. cbn. lia.
    + specialize (IH _ _ _ F E). unfold nestings in *. cbn. lia.
Qed.
Lemma struct_depth esc fs vs es o :
  Forall2 (fun v (e : encoded) => forall esc o, e esc = Ok o -> (depth (erase o) <= nesting v)%N) vs es ->
  enc_struct esc fs vs es = Ok o -> (depth (erase o) <= N.succ (nestings vs))%N.
Proof.
  intros F E. apply bind_ok in E as (ms & E & Eo). injection Eo as <-. rewrite depth_obj.
  apply members_depth in E; [|exact F]. lia.
Qed.
Lemma encs_shallow vs : Forall shallow vs -> forall fs, zip_all (fun f x => wt (f_ty f) x) vs fs ->
  Forall2 (fun v (e : encoded) => forall esc o, e esc = Ok o -> (depth (erase o) <= nesting v)%N) vs (encs vs fs).
Proof.
  induction 1 as [|v vs S _ IH]; intros [|f fs] W; cbn in W; try contradiction; cbn; constructor; [|apply IH, W].
  intros esc o. apply S, W.
Qed.

Lemma bind_ok2 {E A B} (r : result E A) (g : A -> B) : (exists y, bind r (fun x => Ok (g x)) = Ok y) <-> exists x, r = Ok x.
Proof. destruct r; cbn; split; intros (y & H); try discriminate; eauto. Qed.

Lemma depth_atom o : (forall l, o <> OArr l) -> (forall l, o <> OObj l) -> depth (erase o) = 0%N.
Proof. destruct o; intros A B; try reflexivity; [destruct (A l)|destruct (B ms)]; reflexivity. Qed.
Definition low (es : encoded) (v : val) : Prop := forall esc o, es esc = Ok o -> (depth (erase o) <= nesting v)%N.
Lemma nestings_cons v vs : nestings (v :: vs) = N.max (nesting v) (nestings vs).
Proof. reflexivity. Qed.

(** A method never nests deeper than the receiver does. *)
Lemma marshal_depth t h fs vs o : hooked_type t h fs -> zip_all (fun f x => wt (f_ty f) x) vs fs -> Forall shallow vs ->
  marshal h fs vs (encs vs fs) = Ok o -> (depth (erase o) <= N.succ (nestings vs))%N.
Proof.
  intros T L S E.
  pose proof (encs_shallow vs S fs L) as F. remember (encs vs fs) as es eqn:Q. clear Q L S.
  assert (B : forall e v, In (e, v) (combine es vs) -> low e v /\ (nesting v <= nestings vs)%N).
  { clear -F. induction F as [|v e vs es He F IH]; intros e' v' H; [contradiction|]. rewrite nestings_cons. destruct H as [[= <- <-]|H].
    - split; [exact He|lia].
    - apply IH in H as (A & B). split; [exact A|lia]. }
  assert (K : h = HIKEv2 -> (depth (erase o) <= N.succ (nestings vs))%N).
  { intros ->. destruct vs as [|v vs], es as [|e es]; try discriminate. cbn [marshal] in E. destruct (nonempty v).
    - destruct (B e v) as (A & C); [left; reflexivity|]. apply A in E. lia.
    - eapply struct_depth; eassumption. }
  destruct T; try (apply K; reflexivity); clear K.
  - destruct vs as [|a [|b [|c vs]]], es as [|ea [|eb [|ec es]]]; try discriminate. rewrite marshal_env in E.
    destruct (B ea a) as (A1 & A2); [cbn; auto|]. destruct (B eb b) as (B1 & B2); [cbn; auto|].
    destruct (match a with VPtr (Some p) => negb (zero_value p) | _ => false end); [apply A1 in E; lia|].
    destruct (nonempty b); [apply B1 in E; lia|]. injection E as <-. cbn. lia.
  - destruct vs as [|a [|b [|c vs]]], es as [|ea [|eb [|ec es]]]; try discriminate. rewrite marshal_dataset in E.
    destruct (B ea a) as (A1 & A2); [cbn; auto|]. destruct (B eb b) as (B1 & B2); [cbn; auto|].
    destruct (nonempty a).
    + apply struct_depth with (vs := [a]) in E; [|repeat constructor; exact A1]. unfold nestings in E at 1. cbn [map fold_right] in E. lia.
    + destruct (nonnil b); [apply B1 in E; lia|]. injection E as <-. cbn. lia.
  - destruct vs as [|a [|b [|c [|d vs]]]], es as [|ea [|eb [|ec [|ed es]]]]; try discriminate. cbn [marshal] in E.
    destruct (B ea a) as (A1 & A2); [cbn; auto|]. destruct (B eb b) as (B1 & B2); [cbn; auto|]. destruct (B ec c) as (C1 & C2); [cbn; auto|].
    destruct (nonnil a && _)%bool; [discriminate|]. destruct (nonnil a); [apply A1 in E; lia|].
    destruct (nonnil b || nonnil c)%bool; [|discriminate].
    apply struct_depth with (vs := [b; c]) in E; [|repeat constructor; assumption]. unfold nestings in E at 1. cbn [map fold_right] in E. lia.
  - destruct vs as [|a [|b [|c vs]]], es as [|ea [|eb [|ec es]]]; try discriminate. cbn [marshal] in E.
    destruct (B ea a) as (A1 & A2); [cbn; auto|]. destruct (B eb b) as (B1 & B2); [cbn; auto|].
    destruct (nonnil a && nonnil b)%bool; [discriminate|]. destruct (nonnil a); [apply A1 in E; lia|].
    destruct (nonnil b); [apply B1 in E; lia|]. injection E as <-. cbn. lia.
  - destruct vs as [|a [|b [|c vs]]], es as [|ea [|eb [|ec es]]]; try discriminate; cbn [marshal] in E;
      (destruct (nonempty b && nonempty c)%bool; [discriminate|]; destruct (negb (nonempty b || nonempty c))%bool; [discriminate|];
       eapply struct_depth; eassumption).
  - destruct vs as [|a [|b [|c vs]]], es as [|ea [|eb [|ec es]]]; try discriminate. rewrite marshal_state in E.
    destruct (B ea a) as (A1 & A2); [cbn; auto|]. destruct (B eb b) as (B1 & B2); [cbn; auto|].
    destruct (nonnil a && nonnil b)%bool; [discriminate|]. destruct (nonnil a); [apply A1 in E; lia|].
    destruct (nonnil b); [apply B1 in E; lia|]. injection E as <-. cbn. lia.
  - destruct vs as [|a [|b [|c vs]]], es as [|ea [|eb [|ec es]]]; try discriminate. rewrite marshal_extension in E.
    destruct (B ea a) as (A1 & A2); [cbn; auto|]. destruct (B eb b) as (B1 & B2); [cbn; auto|].
    destruct (nonnil a && nonnil b)%bool; [discriminate|]. destruct (nonnil a); [apply A1 in E; lia|].
    destruct (nonnil b); [apply B1 in E; lia|]. injection E as <-. cbn. lia.
  - destruct vs as [|a [|b [|c [|d vs]]]], es as [|ea [|eb [|ec [|ed es]]]]; try discriminate. cbn [marshal] in E.
    destruct (B ea a) as (A1 & A2); [cbn; auto|]. destruct (B eb b) as (B1 & B2); [cbn; auto|]. destruct (B ec c) as (C1 & C2); [cbn; auto|].
    destruct (nonnil a); [|destruct (nonnil b); [|destruct (nonnil c)]];
      try (apply bind_ok in E as (o1 & E1 & E); first [apply A1 in E1|apply B1 in E1|apply C1 in E1]); injection E as <-; cbn [erase map depth snd fst fold_right]; lia.
  - destruct vs as [|a [|b [|c vs]]], es as [|ea [|eb [|ec es]]]; try discriminate. rewrite marshal_patent in E.
    destruct (B ea a) as (A1 & A2); [cbn; auto|]. destruct (B eb b) as (B1 & B2); [cbn; auto|].
    destruct (nonnil a); [apply A1 in E; lia|].
    destruct (nonnil b); [apply B1 in E; lia|]. injection E as <-. cbn. lia.
Qed.

Lemma scanned_ok r o : scanned r = Ok o -> r = Ok o.
Proof. unfold scanned. intros E. apply bind_ok in E as (o' & E1 & E2). destruct (too_deep (erase o')); [discriminate|]. congruence. Qed.

Lemma all_shallow v : shallow v.
Proof.
  induction v as [s|z|b|f| |x IH| |l IH|vs IH] using val_induction; intros t esc o W E.
  - injection E as <-. cbn. lia.
  - cbn [jenc] in E. destruct (marshal_hook t); injection E as <-; cbn; lia.
  - injection E as <-. cbn. lia.
  - destruct f; try discriminate. injection E as <-. cbn. lia.
  - injection E as <-. cbn. lia.
  - cbn [wt] in W. destruct (kind_of t) as [| | | |t'| | |] eqn:Kt; try contradiction.
    assert (Et : elem_ty t = t') by (unfold elem_ty; rewrite Kt; reflexivity).
    change (jenc esc (elem_ty t) x = Ok o) in E. rewrite Et in E. exact (IH t' esc o W E).
  - injection E as <-. cbn. lia.
  - cbn [wt] in W. destruct (kind_of t) as [| | | | |t'| |] eqn:Kt; try contradiction.
    assert (Et : elem_ty t = t') by (unfold elem_ty; rewrite Kt; reflexivity).
    rewrite jenc_slice, Et in E. apply bind_ok in E as (os & E & Eo). injection Eo as <-. cbn [erase depth nesting].
    assert (D : (fold_right N.max 0 (map depth (map erase os)) <= fold_right N.max 0 (map nesting l))%N); [|lia].
    clear -IH W E. revert os W E. induction IH as [|x l Hx _ IHl]; intros os W E.
    + injection E as <-. cbn. lia.
    + cbn [enc_elements] in E. apply bind_ok in E as (o & Eo & E). apply bind_ok in E as (os' & Es & E). injection E as <-.
      destruct W as (W1 & W2). apply Hx in Eo; [|exact W1]. specialize (IHl _ W2 Es). cbn [map fold_right]. lia.
  - cbn [wt] in W. destruct (kind_of t) as [| | | | | |fs|] eqn:Kt; try contradiction.
    rewrite jenc_struct, (fields_of_kind t fs Kt) in E.
    change (nesting (VStruct vs)) with (N.succ (nestings vs)).
    destruct (hook_cases t) as [H|[->|(h & fs' & H)]]; [|discriminate Kt|].
    + rewrite H in E. eapply struct_depth; [|exact E]. apply encs_shallow; assumption.
    + rewrite (hooked_kind _ _ _ H) in Kt. injection Kt as <-.
      assert (E' : scanned (marshal h fs' vs (encs vs fs')) = Ok o) by (rewrite (hooked_marshal _ _ _ H) in E; destruct H; exact E).
      apply scanned_ok in E'. eapply marshal_depth; eassumption.
Qed.

(** ** When encoding succeeds *)
Definition encodes (esc : bool) (p : ty * val) : Prop := exists o, jenc esc (fst p) (snd p) = Ok o.
Definition succeeds (r : result jerr out) : Prop := exists o, r = Ok o.

Lemma members_ok esc : forall fs vs, length vs = length fs ->
  (exists ms, enc_members esc fs vs (encs vs fs) = Ok ms) <-> Forall (encodes esc) (plain_parts fs vs).
Proof.
  induction fs as [|f fs IH]; intros [|v vs] L; try discriminate L.
  - split; [constructor|exists []; reflexivity].
  - injection L as L. specialize (IH vs L). cbn [encs enc_members plain_parts].
    destruct (json_info f) as [[n om]|]; [|exact IH]. destruct (om && empty_value v)%bool; [exact IH|].
    rewrite Forall_cons_iff, <- IH. unfold encodes. cbn [fst snd]. split.
    + intros (ms & E). apply bind_ok in E as (o & Eo & E). apply bind_ok in E as (ms' & Em & _). eauto.
    + intros ((o & Eo) & ms & Em). rewrite Eo, Em. cbn. eauto.
Qed.
Lemma struct_ok_iff esc fs vs : length vs = length fs ->
  succeeds (enc_struct esc fs vs (encs vs fs)) <-> Forall (encodes esc) (plain_parts fs vs).
Proof. intros L. rewrite <- members_ok by exact L. unfold succeeds, enc_struct. apply bind_ok2. Qed.

Lemma forall1 {A} (P : A -> Prop) x : Forall P [x] <-> P x.
Proof. split; [intros H; inversion H; assumption|auto]. Qed.
Lemma forall0 {A} (P : A -> Prop) : Forall P [] <-> True.
Proof. split; auto. Qed.
Lemma zip_length {A B} (P : A -> B -> Prop) : forall bs l, zip_all P bs l -> length bs = length l.
Proof. induction bs as [|b bs IH]; intros [|a l] W; cbn in *; try contradiction; auto. f_equal. apply IH, W. Qed.
Lemma nonnil_points v : nonnil v = true <-> points v.
Proof.
  split.
  - destruct v as [| | | |[x|]| |]; try discriminate. exists x. reflexivity.
  - intros (x & ->). reflexivity.
Qed.

Lemma nonnil_cases t v : wt (TPtr t) v -> (nonnil v = true /\ points v) \/ (nonnil v = false /\ v = VPtr None).
Proof. intros W. apply wt_ptr in W as [->|(x & -> & _)]; [right; auto|left; split; [reflexivity|exists x; reflexivity]]. Qed.
Lemma no_points : ~ points (VPtr None).
Proof. intros (x & H). discriminate H. Qed.

(** Either the choice is an offence and fails, or it succeeds if its parts do. *)
Definition outcome (t : ty) (vs : list val) (r : result jerr out) (ps : list (ty * val)) : Prop :=
  (offence t (VStruct vs) /\ ~ succeeds r) \/ (~ offence t (VStruct vs) /\ (succeeds r <-> Forall (encodes true) ps)).

Lemma ok_ok o : succeeds (Ok o) <-> True.
Proof. split; [trivial|exists o; reflexivity]. Qed.
Lemma err_ok e : ~ succeeds (Err e).
Proof. intros (o & H). discriminate H. Qed.

Lemma marshal_outcome t h fs vs : hooked_type t h fs -> zip_all (fun f x => wt (f_ty f) x) vs fs ->
  outcome t vs (marshal h fs vs (encs vs fs)) (choice_parts h fs vs).
Proof.
  intros T W. pose proof (zip_length _ _ _ W) as L.
  assert (K : h = HIKEv2 -> forall f rest, fs = f :: rest -> succeeds (marshal h fs vs (encs vs fs)) <-> Forall (encodes true) (choice_parts h fs vs)).
  { intros -> f rest ->. pose proof (struct_ok_iff true _ _ L) as R.
    destruct vs as [|v vs]; [discriminate L|]. cbn [encs marshal choice_parts map]. cbn [encs] in R.
    destruct (nonempty v); [|exact R]. rewrite forall1. reflexivity. }
  destruct T; try (right; split; [intros O; inversion O|eapply K; reflexivity]); clear K.
  - unfold fields_EnvironmentVariableChoice in W. destruct vs as [|a [|b [|c vs]]]; cbn [zip_all f_ty] in W; try tauto. clear L.
    change (encs [a; b] fields_EnvironmentVariableChoice) with [fun esc => jenc esc (TPtr (TRef "Property")) a; fun esc => jenc esc TStr b].
    change (choice_parts HEnvironmentVariable fields_EnvironmentVariableChoice [a; b]) with
      (if match a with VPtr (Some p) => negb (zero_value p) | _ => false end then [(TPtr (TRef "Property"), a)] else if nonempty b then [(TStr, b)] else []).
    rewrite marshal_env. right. split; [intros O; inversion O|].
    destruct (match a with VPtr (Some p) => negb (zero_value p) | _ => false end); [rewrite forall1; reflexivity|].
    destruct (nonempty b); [rewrite forall1; reflexivity|rewrite forall0; apply ok_ok].
  - unfold fields_MLDatasetChoice in W. destruct vs as [|a [|b [|c vs]]]; cbn [zip_all f_ty] in W; try tauto. clear L.
    change (encs [a; b] fields_MLDatasetChoice) with [fun esc => jenc esc TStr a; fun esc => jenc esc (TPtr (TRef "ComponentData")) b].
    change (choice_parts HDataset fields_MLDatasetChoice [a; b]) with
      (if nonempty a then [(TStr, a)] else if nonnil b then [(TPtr (TRef "ComponentData"), b)] else []).
    rewrite marshal_dataset. right. split; [intros O; inversion O|].
    destruct (nonempty a) eqn:N.
    + change [fun esc : bool => jenc esc TStr a] with (encs [a] fields_mlDatasetChoiceRefJSON). rewrite struct_ok_iff by reflexivity.
      reflexivity.
    + destruct (nonnil b); [rewrite forall1; reflexivity|rewrite forall0; apply ok_ok].
  - unfold fields_ToolsChoice in W. destruct vs as [|a [|b [|c [|d vs]]]]; cbn [zip_all f_ty] in W; try tauto. clear L.
    change (encs [a; b; c] fields_ToolsChoice) with [fun esc => jenc esc (TPtr (TSlice (TRef "Tool"))) a; fun esc => jenc esc (TPtr (TSlice (TRef "Component"))) b; fun esc => jenc esc (TPtr (TSlice (TRef "Service"))) c].
    change (choice_parts HTools fields_ToolsChoice [a; b; c]) with
      (if nonnil a then [(TPtr (TSlice (TRef "Tool")), a)]
       else ((if nonnil b then [(TPtr (TSlice (TRef "Component")), b)] else []) ++ (if nonnil c then [(TPtr (TSlice (TRef "Service")), c)] else []))%list).
    cbn [marshal]. destruct W as (Wa & Wb & Wc & _).
    destruct (nonnil_cases _ _ Wa) as [(Na & Pa)|(Na & Ea)], (nonnil_cases _ _ Wb) as [(Nb & Pb)|(Nb & Eb)], (nonnil_cases _ _ Wc) as [(Nc & Pc)|(Nc & Ec)];
      rewrite Na, Nb, Nc; cbn [andb orb app];
      try solve [left; split; [constructor; auto|apply err_ok]];
      try (right; split; [intros O; inversion O; subst; try match goal with H : _ \/ _ |- _ => destruct H end; try (eapply no_points; eassumption); destruct Pa as (? & ?); discriminate|rewrite forall1; reflexivity]);
      try (right; split; [intros O; inversion O; subst; try (eapply no_points; eassumption); first [destruct Pb as (? & ?)|destruct Pc as (? & ?)]; discriminate|];
           change [fun esc : bool => jenc esc (TPtr (TSlice (TRef "Component"))) b; fun esc' : bool => jenc esc' (TPtr (TSlice (TRef "Service"))) c] with (encs [b; c] fields_toolsChoiceJSON);
           rewrite struct_ok_iff by reflexivity;
           change (plain_parts fields_toolsChoiceJSON [b; c]) with
             (if empty_value b then (if empty_value c then [] else [(TPtr (TSlice (TRef "Service")), c)])
              else (TPtr (TSlice (TRef "Component")), b) :: (if empty_value c then [] else [(TPtr (TSlice (TRef "Service")), c)]));
           repeat match goal with H : points _ |- _ => destruct H as (? & ->) end; subst; cbn [empty_value]; reflexivity).
    left. subst. split; [apply off_tools_none|apply err_ok].
  - unfold fields_EvidenceIdentityChoice in W. destruct vs as [|a [|b [|c vs]]]; cbn [zip_all f_ty] in W; try tauto. clear L.
    change (encs [a; b] fields_EvidenceIdentityChoice) with [fun esc => jenc esc (TPtr (TRef "EvidenceIdentity")) a; fun esc => jenc esc (TPtr (TSlice (TRef "EvidenceIdentity"))) b].
    change (choice_parts HIdentity fields_EvidenceIdentityChoice [a; b]) with
      (if nonnil a then [(TPtr (TRef "EvidenceIdentity"), a)] else if nonnil b then [(TPtr (TSlice (TRef "EvidenceIdentity")), b)] else []).
    cbn [marshal]. destruct W as (Wa & Wb & _).
    destruct (nonnil_cases _ _ Wa) as [(Na & Pa)|(Na & Ea)], (nonnil_cases _ _ Wb) as [(Nb & Pb)|(Nb & Eb)]; rewrite Na, Nb; cbn [andb];
      [left; split; [constructor; auto|apply err_ok]| | | ];
      (right; split; [intros O; inversion O; subst; eapply no_points; eassumption|]); rewrite ?forall1, ?forall0, ?ok_ok; reflexivity.
  - pose proof (struct_ok_iff true _ _ L) as R. unfold fields_License in W.
    destruct vs as [|a [|b [|c vs]]]; cbn [zip_all f_ty] in W; try tauto. destruct W as (_ & Wb & Wc & _).
    destruct (wt_str b Wb) as (sb & ->), (wt_str c Wc) as (sc & ->).
    cbn [marshal choice_parts]. unfold nonempty. cbn [str_of].
    destruct (String.eqb_spec sb "") as [->|Nb], (String.eqb_spec sc "") as [->|Nc]; cbn [negb andb orb].
    + left. split; [apply off_license_none|apply err_ok].
    + right. split; [intros O; inversion O; congruence|exact R].
    + right. split; [intros O; inversion O; congruence|exact R].
    + left. split; [constructor; assumption|apply err_ok].
  - unfold fields_CertificateState in W. destruct vs as [|a [|b [|c vs]]]; cbn [zip_all f_ty] in W; try tauto. clear L.
    change (encs [a; b] fields_CertificateState) with [fun esc => jenc esc (TPtr (TRef "PredefinedCertificateState")) a; fun esc => jenc esc (TPtr (TRef "CustomCertificateState")) b].
    change (choice_parts HCertState fields_CertificateState [a; b]) with
      (if nonnil a then [(TPtr (TRef "PredefinedCertificateState"), a)] else if nonnil b then [(TPtr (TRef "CustomCertificateState"), b)] else []).
    rewrite marshal_state. destruct W as (Wa & Wb & _).
    destruct (nonnil_cases _ _ Wa) as [(Na & Pa)|(Na & Ea)], (nonnil_cases _ _ Wb) as [(Nb & Pb)|(Nb & Eb)]; rewrite Na, Nb; cbn [andb];
      [left; split; [constructor; auto|apply err_ok]| | | ];
      (right; split; [intros O; inversion O; subst; eapply no_points; eassumption|]); rewrite ?forall1, ?forall0, ?ok_ok; reflexivity.
  - unfold fields_CertificateExtension in W. destruct vs as [|a [|b [|c vs]]]; cbn [zip_all f_ty] in W; try tauto. clear L.
    change (encs [a; b] fields_CertificateExtension) with [fun esc => jenc esc (TPtr (TRef "CommonCertificateExtension")) a; fun esc => jenc esc (TPtr (TRef "CustomCertificateExtension")) b].
    change (choice_parts HCertExtension fields_CertificateExtension [a; b]) with
      (if nonnil a then [(TPtr (TRef "CommonCertificateExtension"), a)] else if nonnil b then [(TPtr (TRef "CustomCertificateExtension"), b)] else []).
    rewrite marshal_extension. destruct W as (Wa & Wb & _).
    destruct (nonnil_cases _ _ Wa) as [(Na & Pa)|(Na & Ea)], (nonnil_cases _ _ Wb) as [(Nb & Pb)|(Nb & Eb)]; rewrite Na, Nb; cbn [andb];
      [left; split; [constructor; auto|apply err_ok]| | | ];
      (right; split; [intros O; inversion O; subst; eapply no_points; eassumption|]); rewrite ?forall1, ?forall0, ?ok_ok; reflexivity.
  - unfold fields_AsserterChoice in W. destruct vs as [|a [|b [|c [|d vs]]]]; cbn [zip_all f_ty] in W; try tauto. clear L.
    change (encs [a; b; c] fields_AsserterChoice) with [fun esc => jenc esc (TPtr (TRef "OrganizationalEntity")) a; fun esc => jenc esc (TPtr (TRef "OrganizationalContact")) b; fun esc => jenc esc (TPtr (TRef "BOMReference")) c].
    change (choice_parts HAsserter fields_AsserterChoice [a; b; c]) with
      (if nonnil a then [(TPtr (TRef "OrganizationalEntity"), a)] else if nonnil b then [(TPtr (TRef "OrganizationalContact"), b)] else if nonnil c then [(TPtr (TRef "BOMReference"), c)] else []).
    cbn [marshal]. right. split; [intros O; inversion O|].
    destruct (nonnil a); [|destruct (nonnil b); [|destruct (nonnil c)]]; rewrite ?forall1, ?forall0, ?ok_ok; try reflexivity; unfold succeeds; rewrite bind_ok2; reflexivity.
  - unfold fields_PatentChoice in W. destruct vs as [|a [|b [|c vs]]]; cbn [zip_all f_ty] in W; try tauto. clear L.
    rewrite encs_patent.
    change (choice_parts HPatent fields_PatentChoice [a; b]) with
      (if nonnil a then [(TPtr (TRef "Patent"), a)] else if nonnil b then [(TPtr (TRef "PatentFamily"), b)] else []).
    rewrite marshal_patent. right. split; [intros O; inversion O|].
    destruct (nonnil a); [rewrite forall1; reflexivity|]. destruct (nonnil b); [rewrite forall1; reflexivity|rewrite forall0; apply ok_ok].
Qed.

(** ** The whole value *)
Definition clean (t : ty) (v : val) : Prop := forall t' v', written t v t' v' -> ~ offence t' v'.

Lemma clean_iff t v : clean t v <-> ~ offence t v /\ Forall (fun p => clean (fst p) (snd p)) (parts_of t v).
Proof.
  unfold clean. rewrite Forall_forall. split.
  - intros C. split; [apply C; constructor|]. intros (t1, v1) I t2 v2 Wr. apply C. eapply written_part; eassumption.
  - intros (O & F) t2 v2 Wr. destruct Wr as [|t1 v1 t2 v2 I Wr]; [exact O|]. exact (F (t1, v1) I t2 v2 Wr).
Qed.

Lemma plain_parts_sub p : forall fs vs, In p (plain_parts fs vs) -> In p (combine (map f_ty fs) vs).
Proof.
  induction fs as [|f fs IH]; intros [|v vs] I; cbn [plain_parts] in I; try contradiction.
  cbn [map combine]. destruct (json_info f) as [[n om]|]; [|right; apply IH, I].
  destruct (om && empty_value v)%bool; [right; apply IH, I|]. destruct I as [<-|I]; [left; reflexivity|right; apply IH, I].
Qed.
Lemma choice_parts_sub h p fs vs : In p (choice_parts h fs vs) -> In p (combine (map f_ty fs) vs).
Proof.
  intros I. destruct h; cbn [choice_parts] in I; try contradiction; try (apply plain_parts_sub, I; fail);
    try (destruct vs as [|a [|b [|c [|d vs]]]], fs as [|fa [|fb [|fc [|fd fs]]]]; cbn [map] in I; try contradiction;
         repeat match type of I with context [if ?c then _ else _] => destruct c end; cbn [app] in I; cbn [map combine In] in *; tauto).
  destruct vs as [|a vs]; [destruct (map f_ty fs); contradiction|]. destruct fs as [|f fs]; [contradiction|].
  cbn [map] in I. destruct (nonempty a); [cbn [map combine In] in *; tauto|apply plain_parts_sub, I].
Qed.
Lemma zip_combine (P : ty -> val -> Prop) : forall fs vs, zip_all (fun f x => P (f_ty f) x) vs fs -> forall p, In p (combine (map f_ty fs) vs) -> P (fst p) (snd p).
Proof.
  induction fs as [|f fs IH]; intros [|v vs] W p I; cbn in W; try contradiction.
  cbn [map combine] in I. destruct I as [<-|I]; [exact (proj1 W)|eapply IH; [exact (proj2 W)|exact I]].
Qed.

Definition decided (v : val) : Prop := forall t esc, ok_ty t = true -> wt t v -> (nesting v <= max_depth)%N ->
  (encodes esc (t, v) <-> clean t v).

Lemma combine_vs {A B} (l : list A) (m : list B) p : In p (combine l m) -> In (snd p) m.
Proof. destruct p. apply in_combine_r. Qed.

Lemma parts_decided t fs vs ps esc : kind_of t = KStruct fs -> zip_all (fun f x => wt (f_ty f) x) vs fs -> Forall decided vs ->
  (nesting (VStruct vs) <= max_depth)%N -> (forall p, In p ps -> In p (combine (map f_ty fs) vs)) ->
  Forall (encodes esc) ps <-> Forall (fun p => clean (fst p) (snd p)) ps.
Proof.
  intros K W D N S. rewrite !Forall_forall. rewrite Forall_forall in D.
  assert (X : forall p, In p ps -> (encodes esc p <-> clean (fst p) (snd p))).
  { intros (t1, v1) I. specialize (S _ I). refine (D v1 _ t1 esc _ _ _).
    - exact (combine_vs _ _ _ S).
    - pose proof (struct_ok t fs K) as O. rewrite forallb_forall in O. apply in_combine_l in S. apply in_map_iff in S as (f & <- & If). apply O, If.
    - exact (zip_combine wt fs vs W _ S).
    - pose proof (nestings_in v1 vs (combine_vs _ _ _ S)) as B. change (nesting (VStruct vs)) with (N.succ (nestings vs)) in N. lia. }
  split; intros H p I; apply X; auto.
Qed.

Lemma all_decided v : decided v.
Proof.
  induction v as [s|z|b|f| |x IH| |l IH|vs IH] using val_induction; intros t esc K W N; rewrite clean_iff.
  - split; [intros _; split; [intros O; inversion O|constructor]|intros _; eexists; reflexivity].
  - split; [intros _; split; [intros O; inversion O|constructor]|intros _]. unfold encodes. cbn [fst snd jenc].
    destruct (marshal_hook t); eexists; reflexivity.
  - split; [intros _; split; [intros O; inversion O|constructor]|intros _; eexists; reflexivity].
  - unfold encodes. cbn [fst snd]. split.
    + intros (o & E). split; [|constructor]. intros O. inversion O; subst; discriminate E.
    + intros (O & _). destruct f; [eexists; reflexivity|exfalso; apply O; constructor|exfalso; apply O; constructor].
  - split; [intros _; split; [intros O; inversion O|constructor]|intros _; eexists; reflexivity].
  - cbn [wt] in W. destruct (kind_of t) as [| | | |t'| | |] eqn:Kt; try contradiction.
    destruct (kind_ptr t t' K Kt) as (-> & K'). cbn [parts_of]. change (elem_ty (TPtr t')) with t'. rewrite forall1. cbn [fst snd].
    rewrite <- (IH t' esc K' W N). split; [intros H; split; [intros O; inversion O|exact H]|intros (_ & H); exact H].
  - split; [intros _; split; [intros O; inversion O|constructor]|intros _; eexists; reflexivity].
  - cbn [wt] in W. destruct (kind_of t) as [| | | | |t'| |] eqn:Kt; try contradiction.
    assert (Et : elem_ty t = t') by (unfold elem_ty; rewrite Kt; reflexivity).
    assert (K' : ok_ty t' = true) by (apply elem_ok_ok, (slice_ok t t' K Kt)).
    cbn [parts_of]. rewrite Et. unfold encodes. cbn [fst snd]. rewrite jenc_slice, Et, bind_ok2.
    assert (G : (exists os, enc_elements esc t' l = Ok os) <-> Forall (fun p => clean (fst p) (snd p)) (map (fun x => (t', x)) l)).
    { change (nesting (VSlice (Some l))) with (N.succ (nestings l)) in N. clear -IH W N K'. revert W N. induction IH as [|x l Hx _ IHl]; intros W N.
      - split; [constructor|exists []; reflexivity].
      - destruct W as (W1 & W2). rewrite nestings_cons in N. cbn [map enc_elements]. rewrite Forall_cons_iff, <- IHl; [|exact W2|lia]. cbn [fst snd].
        rewrite <- (Hx t' esc K' W1); [|lia]. unfold encodes. cbn [fst snd]. split.
        + intros (os & E). apply bind_ok in E as (o & Eo & E). apply bind_ok in E as (os' & Es & _). eauto.
        + intros ((o & Eo) & os & Es). rewrite Eo, Es. eexists. reflexivity. }
    rewrite G. split; [intros H; split; [intros O; inversion O|exact H]|intros (_ & H); exact H].
  - cbn [wt] in W. destruct (kind_of t) as [| | | | | |fs|] eqn:Kt; try contradiction.
    unfold encodes. cbn [fst snd parts_of]. rewrite jenc_struct, (fields_of_kind t fs Kt).
    destruct (hook_cases t) as [H|[->|(h & fs' & H)]]; [|discriminate Kt|].
    + rewrite H. pose proof (struct_ok_iff esc fs vs (zip_length _ _ _ W)) as R. unfold succeeds in R. rewrite R.
      cbn [choice_parts]. rewrite (parts_decided t fs vs (plain_parts fs vs) esc Kt W IH N (fun p => plain_parts_sub p fs vs)).
      split; [intros F; split; [intros O; inversion O; subst; discriminate H|exact F]|intros (_ & F); exact F].
    + rewrite (hooked_kind _ _ _ H) in Kt. injection Kt as <-.
      assert (E : match marshal_hook t with HNone => enc_struct esc fs' vs (encs vs fs') | h' => scanned (marshal h' fs' vs (encs vs fs')) end
                  = scanned (marshal h fs' vs (encs vs fs'))) by (rewrite (hooked_marshal _ _ _ H); destruct H; reflexivity).
      rewrite E. rewrite (hooked_marshal _ _ _ H).
      assert (Sc : (exists o, scanned (marshal h fs' vs (encs vs fs')) = Ok o) <-> succeeds (marshal h fs' vs (encs vs fs'))).
      { split; [intros (o & Eo); exists o; apply scanned_ok, Eo|]. intros (o & Eo). exists o. unfold scanned. rewrite Eo. cbn [bind].
        assert (S : Forall shallow vs) by (rewrite Forall_forall; intros; apply all_shallow).
        pose proof (marshal_depth t h fs' vs o H W S Eo) as Dp. change (nesting (VStruct vs)) with (N.succ (nestings vs)) in N.
        unfold too_deep. destruct (N.ltb_spec max_depth (depth (erase o))); [lia|reflexivity]. }
      rewrite Sc.
      pose proof (parts_decided t fs' vs (choice_parts h fs' vs) true (hooked_kind _ _ _ H) W IH N (fun p => choice_parts_sub h p fs' vs)) as PD.
      destruct (marshal_outcome t h fs' vs H W) as [(O & F)|(O & F)].
      * split; [intros X; contradiction|intros (X & _); contradiction].
      * rewrite F, PD. split; [intros X; split; assumption|intros (_ & X); exact X].
Qed.

Theorem encodes_iff t v esc : ok_ty t = true -> wt t v -> (nesting v <= max_depth)%N ->
  (exists o, jenc esc t v = Ok o) <-> forall t' v', written t v t' v' -> ~ offence t' v'.
Proof. exact (all_decided v t esc). Qed.
