(** MEvidence, MData and MDefinitions. *)
From Verif Require Import Base Types Univ TypeTable Wt ReifyBase Consts LinkModel Version Numbers NumbersProofs JsonModel JsonProofs JsonHooks XmlModel XmlBack XmlTable XmlSpec XmlValues XmlProofs XmlPairs XmlStructs XmlSelf XmlHooks XmlLists.
From Coq Require Import Lia.
Local Open Scope string_scope.
Section Limits.
Context {Lim : Limit}.

(** ** MEvidence *)
Definition occ_field : field := mkField "Occurrences" (TPtr (TSlice (TRef "EvidenceOccurrence"))) "json:""-"" xml:""occurrences>occurrence,omitempty""" false.
Definition stack_field : field := mkField "Callstack" (TPtr (TRef "Callstack")) "json:""-"" xml:""callstack,omitempty""" false.
Definition lics_field : field := mkField "Licenses" (TPtr (TRef "Licenses")) "json:""-"" xml:""licenses,omitempty""" false.
Definition copy_field : field := mkField "Copyright" (TPtr (TSlice (TRef "Copyright"))) "json:""-"" xml:""copyright>text,omitempty""" false.
Definition occ_back : field := mkField "Occurrences" (TPtr (TSlice (TRef "EvidenceOccurrence"))) "json:""-"" xml:""occurrence,omitempty""" false.
Definition copy_back : field := mkField "Copyright" (TPtr (TSlice (TRef "Copyright"))) "json:""-"" xml:""text,omitempty""" false.
Definition ids_field : field := mkField "Identity" (TPtr (TSlice (TRef "EvidenceIdentity"))) "json:""-"" xml:""identity,omitempty""" false.
Lemma evidence_enc a b c d : enc_fields (tl fields_EvidenceMarshalXML) [a; b; c; d] =
  bind (enc_field occ_field a) (fun w => bind (enc_field stack_field b) (fun x => bind (enc_field lics_field c) (fun y => bind (enc_field copy_field d) (fun z => Ok (w ++ x ++ y ++ z)%list)))).
Proof.
  unfold fields_EvidenceMarshalXML. cbn [tl]. fold occ_field stack_field lics_field copy_field. cbn [enc_fields].
  destruct (enc_field occ_field a) as [w|]; [|reflexivity]. destruct (enc_field stack_field b) as [x|]; [|reflexivity].
  destruct (enc_field lics_field c) as [y|]; [|reflexivity]. destruct (enc_field copy_field d) as [z|]; [|reflexivity]. cbn [bind]. rewrite app_nil_r. reflexivity.
Qed.
Definition ids_of (identity : val) : list val :=
  match identity with
  | VPtr (Some (VStruct [one; many])) =>
      if nonnil many then items (TRef "EvidenceIdentity") many
      else match bptr (back_of one) (TRef "EvidenceIdentity") with VPtr (Some x) => [x] | _ => [] end
  | _ => []
  end.
Lemma ids_app (s : list val * list val) l : fold_left (fun s v => match s with (t, r) => ((t ++ [v])%list, r) end) l s = match s with (t, r) => ((t ++ l)%list, r) end.
Proof. revert s. induction l as [|x l IH]; intros (t & r); [cbn; rewrite app_nil_r; reflexivity|]. cbn [fold_left]. rewrite IH, <- app_assoc. reflexivity. Qed.
Lemma named_elems n l : Forall (named n) l -> forallb is_elem l = true.
Proof. induction 1 as [|e l H _ IH]; [reflexivity|]; destruct e; [destruct H|exact IH]. Qed.
Lemma identities_ok identity ids : everywhere one_ok identity -> wt (TPtr (TRef "EvidenceIdentityChoice")) identity -> xsane (TPtr (TRef "EvidenceIdentityChoice")) identity ->
  match pointee (annotate identity) with
  | [one; many] =>
      if set many then nenc many (TPtr (TSlice (TRef "EvidenceIdentity"))) true "identity"
      else if set one then nenc one (TPtr (TRef "EvidenceIdentity")) true "identity"
      else Ok []
  | _ => Ok []
  end = Ok ids ->
  Forall (named "identity") ids /\ forall ids', Forall2 seen ids ids' -> Forall short ids' -> Forall2 (fun e w => fresh e (TRef "EvidenceIdentity") = Ok w) ids' (ids_of identity).
Proof.
  intros Ev W S E.
  assert (Nil : ids_of identity = [] -> ids = [] -> Forall (named "identity") ids /\ forall ks', Forall2 seen ids ks' -> Forall short ks' -> Forall2 (fun e w => fresh e (TRef "EvidenceIdentity") = Ok w) ks' (ids_of identity)).
  { intros I ->. split; [constructor|]. intros ks' F _. inversion F. rewrite I. constructor. }
  apply wt_ptr in W as [->|(c & -> & W)]; [injection E as <-; apply Nil; reflexivity|].
  destruct (wt_struct (TRef "EvidenceIdentityChoice") _ _ eq_refl W) as (vs & -> & Wz). unfold fields_EvidenceIdentityChoice in Wz. clear W. unzip Wz. rename v into one, v0 into many_.
  destruct S as (So & Sm & _). cbn [f_ty] in *. apply everywhere_ptr, everywhere_below in Ev.
  pose proof (below_nth _ 0%nat _ Ev eq_refl) as Eo. pose proof (below_nth _ 1%nat _ Ev eq_refl) as Em. clear Ev.
  change (pointee (annotate (VPtr (Some (VStruct [one; many_]))))) with [annotate one; annotate many_] in E. cbv iota in E. unfold set in E. rewrite !nval_annotate in E.
  unfold ids_of in *. destruct (nonnil many_) eqn:Nm.
  - assert (Sv : exists x, many_ = VPtr (Some x)) by (destruct many_ as [| | | |[x|]| |]; try discriminate; eauto). destruct Sv as (x & ->).
    apply (beside ids_field "identity" (TRef "EvidenceIdentity") fields_EvidenceIdentity (VPtr (Some x)) ids); try reflexivity; auto.
    unfold enc_field. change (xml_info ids_field) with (Some (mkX XElement [] "identity" true)). cbn [annotate nval f_ty ids_field]. unfold enc_checked. cbn [nval empty_value andb].
    cbn [annotate] in E. rewrite E. reflexivity.
  - apply wt_ptr in Wf as [->|(x & -> & W)]; [injection E as <-; apply Nil; reflexivity|]. cbn [nonnil] in E.
    pose proof (ptr_one (TRef "EvidenceIdentity") x true "identity" ids eq_refl (everywhere_here _ _ (everywhere_ptr x Eo) (TRef "EvidenceIdentity") eq_refl) W So E) as H.
    rewrite (struct_back (TRef "EvidenceIdentity") fields_EvidenceIdentity) in H by (auto; reflexivity). destruct H as (e & -> & N & D).
    rewrite (ptr_struct (TRef "EvidenceIdentity") fields_EvidenceIdentity) by (auto; reflexivity). cbn [some_ptr].
    split; [constructor; [exact N|constructor]|]. intros ks' F T. inversion F as [|? e' ? r S' F']; subst. inversion F'; subst. inversion T; subst.
    constructor; [|constructor]. apply D; assumption.
Qed.
Lemma ids_back identity : wt (TPtr (TRef "EvidenceIdentityChoice")) identity ->
  match bpointee (back_of identity) with
  | [one; many] =>
      let l := if bset many then bptr many (TSlice (TRef "EvidenceIdentity"))
               else match bptr one (TRef "EvidenceIdentity") with VPtr (Some x) => some_ptr (VSlice (Some [x])) | _ => VPtr None end in
      if nonnil l then some_ptr (VStruct [VPtr None; l]) else VPtr None
  | _ => VPtr None
  end = match ids_of identity with [] => VPtr None | l => some_ptr (VStruct [VPtr None; ptr_if l]) end.
Proof.
  intros W. apply wt_ptr in W as [->|(c & -> & W)]; [reflexivity|].
  destruct (wt_struct (TRef "EvidenceIdentityChoice") _ _ eq_refl W) as (vs & -> & Wz). unfold fields_EvidenceIdentityChoice in Wz. clear W. unzip Wz. cbn [f_ty] in *.
  change (bpointee (back_of (VPtr (Some (VStruct [v; v0]))))) with [back_of v; back_of v0]. cbv iota zeta. unfold bset, ids_of. rewrite bval_back.
  destruct (nonnil v0).
  - rewrite (slice_ptr (TRef "EvidenceIdentity") fields_EvidenceIdentity) by (auto; reflexivity). destruct (items (TRef "EvidenceIdentity") v0); reflexivity.
  - destruct (bptr (back_of v) (TRef "EvidenceIdentity")) as [| | | |[x|]| |]; reflexivity.
Qed.
(** The four other parts. [s1], [s2]: the state before and after. *)
Definition part (ks : list xml) (step : list val -> list val) (inv : list val -> Prop) : Prop :=
  forallb is_elem ks = true /\ forall ks', Forall2 seen ks ks' -> Forall short ks' -> forall ids st, inv st -> each_kid dec_evidence (map waiting ks') (ids, st) = Ok (ids, step st).
Lemma part_nil step (inv : list val -> Prop) : (forall st, inv st -> step st = st) -> part [] step inv.
Proof. intros H. split; [reflexivity|]. intros ks' F _ ids st Is. inversion F. cbn. rewrite H by exact Is. reflexivity. Qed.
Definition at_most (i : nat) (st : list val) : Prop := length st = 4%nat /\ forall j, (i <= j < 4)%nat -> nth_error st j = Some (VPtr None).
End Limits.
Ltac states st H :=
  destruct H as (?L & H); destruct st as [|?c0 [|?c1 [|?c2 [|?c3 [|? ?]]]]]; try discriminate.
Section Limits.
Context {Lim : Limit}.
Lemma set_same (i : nat) st : at_most i st -> (i < 4)%nat -> set_nth i (VPtr None) st = st.
Proof.
  intros H Li. states st H. specialize (H i). destruct i as [|[|[|[|i]]]]; try lia; cbn in *; (assert (X := H ltac:(lia)); injection X as ->); reflexivity.
Qed.
Lemma occ_part v ks : everywhere one_ok v -> wt (TPtr (TSlice (TRef "EvidenceOccurrence"))) v -> xsane (TPtr (TSlice (TRef "EvidenceOccurrence"))) v ->
  enc_field occ_field (annotate v) = Ok ks -> part ks (set_nth 0 (ptr_if (items (TRef "EvidenceOccurrence") v))) (at_most 0).
Proof.
  intros Ev W S E.
  destruct (wrapped fields_EvidenceUnmarshalXML occ_field occ_back 0 "occurrences" "occurrence" (TRef "EvidenceOccurrence") fields_EvidenceOccurrence v ks eq_refl eq_refl eq_refl eq_refl eq_refl eq_refl
      eq_refl eq_refl eq_refl eq_refl eq_refl eq_refl Ev W S E) as [(-> & ->)|(e & -> & N & D)].
  - apply part_nil. intros st Is. apply set_same; [exact Is|lia].
  - split; [destruct e; [destruct N|reflexivity]|]. intros ks' F T ids st Is. inversion F as [|? e' ? r S' F']; subst. inversion F'; subst. inversion T as [|? ? Sh1 _]; subst.
    pose proof (set_same 0 st Is ltac:(lia)) as Same. states st Is.
    open_seen e' S' N. cbn [map]. rewrite waiting_elem. cbn [each_kid dec_evidence]. change (String.eqb "occurrences" "identity") with false. change (String.eqb "occurrences" "occurrences") with true. cbv iota.
    rewrite (D _ _ _ S' Sh1). change (XmlModel.zeros fields_EvidenceUnmarshalXML) with [VPtr None; VPtr None]. cbn [bind set_nth].
    destruct (items (TRef "EvidenceOccurrence") v); [|reflexivity]. cbn [set_nth] in Same. injection Same as <-. reflexivity.
Qed.
Lemma copy_part v ks : everywhere one_ok v -> wt (TPtr (TSlice (TRef "Copyright"))) v -> xsane (TPtr (TSlice (TRef "Copyright"))) v ->
  enc_field copy_field (annotate v) = Ok ks -> part ks (set_nth 3 (ptr_if (items (TRef "Copyright") v))) (at_most 3).
Proof.
  intros Ev W S E.
  destruct (wrapped fields_EvidenceUnmarshalXML copy_field copy_back 1 "copyright" "text" (TRef "Copyright") fields_Copyright v ks eq_refl eq_refl eq_refl eq_refl eq_refl eq_refl
      eq_refl eq_refl eq_refl eq_refl eq_refl eq_refl Ev W S E) as [(-> & ->)|(e & -> & N & D)].
  - apply part_nil. intros st Is. apply set_same; [exact Is|lia].
  - split; [destruct e; [destruct N|reflexivity]|]. intros ks' F T ids st Is. inversion F as [|? e' ? r S' F']; subst. inversion F'; subst. inversion T as [|? ? Sh1 _]; subst.
    pose proof (set_same 3 st Is ltac:(lia)) as Same. states st Is.
    open_seen e' S' N. cbn [map]. rewrite waiting_elem. cbn [each_kid dec_evidence]. change (String.eqb "copyright" "identity") with false. change (String.eqb "copyright" "occurrences") with false.
    change (String.eqb "copyright" "callstack") with false. change (String.eqb "copyright" "licenses") with false. change (String.eqb "copyright" "copyright") with true. cbv iota.
    rewrite (D _ _ _ S' Sh1). change (XmlModel.zeros fields_EvidenceUnmarshalXML) with [VPtr None; VPtr None]. cbn [bind set_nth].
    destruct (items (TRef "Copyright") v); [|reflexivity]. cbn [set_nth] in Same. injection Same as <-. reflexivity.
Qed.
Definition stack_of (v : val) : val := drop_if (forallb zero_value (fields_of_val (deref (bptr (back_of v) (TRef "Callstack"))))) (bptr (back_of v) (TRef "Callstack")).
Definition lics_of (v : val) : val := drop_if (empty_value (deref (bptr (back_of v) (TRef "Licenses")))) (bptr (back_of v) (TRef "Licenses")).
Lemma enc_ptr f n t v ks : xml_info f = Some (mkX XElement [] n true) -> f_ty f = TPtr t -> wt (TPtr t) v -> enc_field f (annotate v) = Ok ks ->
  v = VPtr None /\ ks = [] \/ exists x, v = VPtr (Some x) /\ wt t x /\ nenc (annotate (VPtr (Some x))) (TPtr t) true n = Ok ks.
Proof.
  intros X T W E. unfold enc_field in E. rewrite X, T, nval_annotate in E. apply wt_ptr in W as [->|(x & -> & W)]; [injection E as <-; auto|].
  right. exists x. split; [reflexivity|]. split; [exact W|]. apply bind_ok in E as (els & E & Q). injection Q as <-. exact E.
Qed.
Lemma stack_part v ks : everywhere one_ok v -> wt (TPtr (TRef "Callstack")) v -> xsane (TPtr (TRef "Callstack")) v ->
  enc_field stack_field (annotate v) = Ok ks -> part ks (set_nth 1 (stack_of v)) (at_most 1).
Proof.
  intros Ev W S E. destruct (enc_ptr stack_field "callstack" (TRef "Callstack") v ks eq_refl eq_refl W E) as [(-> & ->)|(x & -> & Wx & E')].
  - apply part_nil. intros st Is. apply set_same; [exact Is|lia].
  - pose proof (ptr_one (TRef "Callstack") x true "callstack" ks eq_refl (everywhere_here _ _ (everywhere_ptr x Ev) (TRef "Callstack") eq_refl) Wx S E') as H.
    rewrite (struct_back (TRef "Callstack") fields_Callstack) in H by (auto; reflexivity). destruct H as (e & -> & N & D).
    unfold stack_of. rewrite (ptr_struct (TRef "Callstack") fields_Callstack) by (auto; reflexivity). cbn [deref some_ptr].
    split; [destruct e; [destruct N|reflexivity]|]. intros ks' F T ids st Is. inversion F as [|? e' ? r S' F']; subst. inversion F'; subst. inversion T as [|? ? Sh1 _]; subst.
    specialize (D e' S' Sh1). pose proof (set_same 1 st Is ltac:(lia)) as Same. states st Is.
    change (element_name (TRef "Callstack") "callstack") with "callstack" in N.
    open_seen e' S' N. cbn [map]. rewrite waiting_elem. cbn [each_kid dec_evidence]. change (String.eqb "callstack" "identity") with false. change (String.eqb "callstack" "occurrences") with false.
    change (String.eqb "callstack" "callstack") with true. cbv iota. cbn [fresh] in D. rewrite D. cbn [bind].
    destruct (wt_struct (TRef "Callstack") _ _ eq_refl Wx) as (vs & -> & Wz). unfold fields_Callstack in Wz. unzip Wz. cbn [f_ty] in *.
    assert (P : exists o, back_field (hd occ_field fields_Callstack) (back_of v) = VPtr o).
    { apply wt_ptr in Wf as [->|(y & -> & Wy)]; [exists None; reflexivity|].
      change (exists o, default (TPtr (TSlice (TRef "CallstackFrame"))) (checked_back (back_of (VPtr (Some y))) (TPtr (TSlice (TRef "CallstackFrame"))) true) = VPtr o).
      unfold checked_back. cbn [bval back_of empty_value andb bback back_value option_map]. destruct (bback (back_of y) _ true); cbn; unfold some_ptr; eauto. }
    destruct P as (o & P). cbn [hd fields_Callstack] in P. unfold struct_of. cbn [map back_fields fields_Callstack fields_of_val existsb forallb]. rewrite P.
    destruct o as [y|]; cbn [nonnil zero_value orb andb drop_if set_nth]; [reflexivity|]. cbn [set_nth] in Same. injection Same as <-. reflexivity.
Qed.
Lemma lics_part v ks : everywhere one_ok v -> wt (TPtr (TRef "Licenses")) v -> xsane (TPtr (TRef "Licenses")) v ->
  enc_field lics_field (annotate v) = Ok ks -> part ks (set_nth 2 (lics_of v)) (at_most 2).
Proof.
  intros Ev W S E. destruct (enc_ptr lics_field "licenses" (TRef "Licenses") v ks eq_refl eq_refl W E) as [(-> & ->)|(x & -> & Wx & E')].
  - apply part_nil. intros st Is. apply set_same; [exact Is|lia].
  - pose proof (ptr_one (TRef "Licenses") x true "licenses" ks eq_refl (everywhere_here _ _ (everywhere_ptr x Ev) (TRef "Licenses") eq_refl) Wx S E') as H.
    assert (B : bptr (back_of (VPtr (Some x))) (TRef "Licenses") = default (TPtr (TRef "Licenses")) (option_map some_ptr (bback (back_of x) (TRef "Licenses") false))) by reflexivity.
    unfold lics_of. rewrite B. clear B.
    destruct (slice_wt (TRef "Licenses") (TRef "LicenseChoice") x eq_refl Wx) as ([l|] & -> & Wl).
    2: { change (ks = []) in H. subst ks. apply part_nil. intros st Is. apply set_same; [exact Is|lia]. }
    destruct l as [|y l]; [change (ks = []) in H; subst ks; apply part_nil; intros st Is; apply set_same; [exact Is|lia]|].
    assert (B : forall o, bback (back_of (VSlice (Some (y :: l)))) (TRef "Licenses") o = Some (VSlice (Some (somes back_license_choice (map back_of (y :: l)))))) by reflexivity.
    rewrite B in H. rewrite B. clear B. destruct H as (e & -> & N & D). cbn [option_map default some_ptr deref].
    set (ws := somes back_license_choice (map back_of (y :: l))) in *. clearbody ws.
    split; [destruct e; [destruct N|reflexivity]|]. intros ks' F T ids st Is. inversion F as [|? e' ? r S' F']; subst. inversion F'; subst. inversion T as [|? ? Sh1 _]; subst.
    specialize (D e' S' Sh1). pose proof (set_same 2 st Is ltac:(lia)) as Same. states st Is.
    change (element_name (TRef "Licenses") "licenses") with "licenses" in N.
    open_seen e' S' N. cbn [map]. rewrite waiting_elem. cbn [each_kid dec_evidence]. change (String.eqb "licenses" "identity") with false. change (String.eqb "licenses" "occurrences") with false.
    change (String.eqb "licenses" "callstack") with false. change (String.eqb "licenses" "licenses") with true. cbv iota. cbn [fresh] in D. rewrite D. cbn [bind list_of_slice].
    destruct ws as [|w ws]; cbn [empty_value drop_if set_nth]; [cbn [set_nth] in Same; injection Same as <-; reflexivity|reflexivity].
Qed.
Lemma hook_evidence vs : below one_ok (VStruct vs) -> hook_at (TRef "Evidence") MEvidence fields_Evidence vs.
Proof.
  intros Bl name els Wz S E. unfold fields_Evidence in Wz. unzip Wz. rename v into identity, v0 into occ, v1 into stack, v2 into lics, v3 into copy.
  destruct S as (S0 & S1 & S2 & S3 & S4 & _). cbn [f_ty] in *.
  pose proof (below_nth _ 0%nat _ Bl eq_refl) as E0. pose proof (below_nth _ 1%nat _ Bl eq_refl) as E1. pose proof (below_nth _ 2%nat _ Bl eq_refl) as E2.
  pose proof (below_nth _ 3%nat _ Bl eq_refl) as E3. pose proof (below_nth _ 4%nat _ Bl eq_refl) as E4. clear Bl.
  cbn [map back_method]. pose proof (ids_back identity Wf) as Ib. cbv zeta in Ib. rewrite Ib. clear Ib. unfold bset. rewrite !bval_back.
  rewrite (slice_ptr (TRef "EvidenceOccurrence") fields_EvidenceOccurrence occ), (slice_ptr (TRef "Copyright") fields_Copyright copy) by (auto; reflexivity).
  fold (stack_of stack) (lics_of lics).
  cbn [map marshal] in E. unfold set at 1 2 3 4 5 in E. rewrite !nval_annotate in E.
  destruct (nonnil identity || nonnil occ || nonnil stack || nonnil lics || nonnil copy)%bool; [|injection E as <-; reflexivity].
  apply bind_ok in E as (ids & Ei & E). rewrite evidence_enc in E. apply bind_ok in E as (ks & Ek & E). injection E as <-.
  apply bind_ok in Ek as (w & Ew & Ek). apply bind_ok in Ek as (x & Ex & Ek). apply bind_ok in Ek as (y & Ey & Ek). apply bind_ok in Ek as (z & Ez & Ek). injection Ek as <-.
  destruct (identities_ok identity ids E0 Wf S0 Ei) as (Ni & Ri).
  destruct (occ_part occ w E1 Wf0 S1 Ew) as (Nw & Rw). destruct (stack_part stack x E2 Wf1 S2 Ex) as (Nx & Rx).
  destruct (lics_part lics y E3 Wf2 S3 Ey) as (Ny & Ry). destruct (copy_part copy z E4 Wf3 S4 Ez) as (Nz & Rz).
  exists (elem name [] (ids ++ w ++ x ++ y ++ z)). split; [reflexivity|]. split; [reflexivity|]. intros sp l a ks Se T.
  apply seen_inv in Se as (sp' & ks' & Q & F & _). injection Q as -> -> -> ->.
  rewrite elems_filter in F by (rewrite !forallb_app, (named_elems _ _ Ni), Nw, Nx, Ny, Nz; reflexivity).
  apply Forall2_app_inv_l in F as (i' & r' & Fi & F & Eq). apply Forall2_app_inv_l in F as (w' & r1 & Fw & F & ->). apply Forall2_app_inv_l in F as (x' & r2 & Fx & F & ->).
  apply Forall2_app_inv_l in F as (y' & z' & Fy & Fz & ->).
  pose proof (short_kids sp' name [] ks' T) as Sh. rewrite Eq in Sh. apply Forall_app in Sh as (Shi & Sh). apply Forall_app in Sh as (Shw & Sh). apply Forall_app in Sh as (Shx & Sh). apply Forall_app in Sh as (Shy & Shz).
  cbn [unmarshal]. rewrite each_filter, Eq, !map_app, each_app.
  rewrite (each_fresh (fun s => length (snd s) = 4%nat) dec_evidence (fun s v => match s with (t, r) => ((t ++ [v])%list, r) end) (TRef "EvidenceIdentity") "identity") with (ws := ids_of identity).
  2: { intros (t & r) v H. exact H. }
  2: { intros e (t & r) N H. destruct e as [|sp l a ks]; [destruct N|]. cbn [named snd] in *. subst l. destruct r as [|? [|? [|? [|? [|? ?]]]]]; try discriminate. reflexivity. }
  2: { apply Ri; assumption. }
  2: { apply (seen_names _ _ _ Fi Ni). }
  2: reflexivity.
  rewrite ids_app. cbn [bind app]. rewrite each_app.
  rewrite (Rw w' Fw Shw) by (split; [reflexivity|]; intros [|[|[|[|j]]]] Hj; try reflexivity; lia). cbn [bind set_nth]. rewrite each_app.
  rewrite (Rx x' Fx Shx) by (split; [reflexivity|]; intros [|[|[|[|j]]]] Hj; try reflexivity; lia). cbn [bind set_nth]. rewrite each_app.
  rewrite (Ry y' Fy Shy) by (split; [reflexivity|]; intros [|[|[|[|j]]]] Hj; try reflexivity; lia). cbn [bind set_nth].
  rewrite (Rz z' Fz Shz) by (split; [reflexivity|]; intros [|[|[|[|j]]]] Hj; try reflexivity; lia). cbn [bind set_nth].
  destruct (ids_of identity); reflexivity.
Qed.

(** ** Walking over the elements *)
Lemma go_each {S} enter leave : forall ks (s : S),
  (fix go (ks : list kid) (s : S) : result xerr S := match ks with [] => Ok s | k' :: ks' => bind (walk enter leave k' s) (go ks') end) ks s = each_kid (walk enter leave) ks s.
Proof.
  induction ks as [|[t|sp l a k d] ks IH]; intros s; [reflexivity|apply IH|]. cbn [each_kid]. destruct (walk enter leave _ s); [apply IH|reflexivity].
Qed.
Lemma walk_all_each {S} enter leave : forall ks (s : S), walk_all enter leave ks s = each_kid (walk enter leave) ks s.
Proof.
  induction ks as [|[t|sp l a k d] ks IH]; intros s; [reflexivity|apply IH|]. cbn [each_kid walk_all]. destruct (walk enter leave _ s); [apply IH|reflexivity].
Qed.
Lemma walk_elem {S} enter leave sp l a ks d (s : S) : walk enter leave (KElem sp l a ks d) s =
  bind (enter (KElem sp l a ks d) s) (fun r => match r with Decoded s1 => Ok s1 | Entered s1 => bind (each_kid (walk enter leave) ks s1) (leave l) end).
Proof. cbn [walk]. destruct (enter _ s) as [[s1|s1]|]; try reflexivity. cbn [bind]. rewrite go_each. reflexivity. Qed.

(** ** MData *)
Lemma fresh_text sp l a s : fresh (XElem sp l a (text s)) TStr = Ok (VStr (xml_clean s)).
Proof. rewrite fresh_base by reflexivity. cbn [vdec]. unfold dec_value. change (unmarshaler TStr) with MNone. cbn [kind_of]. rewrite text_chardata. reflexivity. Qed.
Lemma seen_texts sp l a s e' : seen (XElem sp l a (text s)) e' -> exists sp', e' = XElem sp' l a (text s).
Proof.
  intros H. apply seen_inv in H as (sp' & ks' & -> & _ & T & _). rewrite T; [eauto|]. unfold text. destruct (String.eqb s ""); reflexivity.
Qed.
Lemma seen_single e l : Forall2 seen [e] l -> exists e', l = [e'] /\ seen e e'.
Proof. intros F. inversion F as [|? e' ? r S' F']; subst. inversion F'; subst. eauto. Qed.
Lemma urls_read src sts : forall els', Forall2 seen (map (text_elem "url") sts) els' -> forall us vs,
  each_kid (walk data_enter data_leave) (map waiting els') (DUrls src us vs) = Ok (DUrls src (us ++ map (fun s => VStr (xml_clean s)) sts) vs).
Proof.
  induction sts as [|s sts IH]; intros els' F us vs; inversion F as [|? e' ? r S' F']; subst; [cbn; rewrite app_nil_r; reflexivity|].
  apply seen_texts in S' as (sp' & ->). cbn [map]. rewrite waiting_elem. cbn [each_kid]. rewrite walk_elem. cbn [data_enter]. change (String.eqb "url" "url") with true. cbv iota.
  pose proof (fresh_text sp' "url" [] s) as H. cbn [fresh] in H. rewrite H. cbn [bind]. rewrite (IH r F'), <- app_assoc. reflexivity.
Qed.
Definition urls (place : string) (l : list string) : list xml := match l with [] => [] | s :: r => [elem place [] (text_elem "url" s :: map (text_elem "url") r)] end.
Definition data_part (ks : list xml) (i : nat) (w : val) : Prop :=
  forallb is_elem ks = true /\ forall ks', Forall2 seen ks ks' -> Forall short ks' ->
    forall vs, length vs = 7%nat -> nth_error vs i = Some (VPtr None) -> each_kid (walk data_enter data_leave) (map waiting ks') (DOuter vs) = Ok (DOuter (set_nth i w vs)).
Lemma set_nth_same (i : nat) : forall (vs : list val) v, nth_error vs i = Some v -> set_nth i v vs = vs.
Proof. induction i as [|i IH]; intros [|x vs] v H; try discriminate; cbn in *; [congruence|]. f_equal. apply IH, H. Qed.
Lemma url_elems l : forallb is_elem (map (text_elem "url") l) = true.
Proof. induction l; [reflexivity|assumption]. Qed.
Lemma urls_part place (b : bool) i l : place = "source" /\ b = true /\ i = 5%nat \/ place = "destination" /\ b = false /\ i = 6%nat ->
  data_part (urls place l) i (ptr_if (map (fun s => VStr (xml_clean s)) l)).
Proof.
  intros P. destruct l as [|s l].
  { split; [reflexivity|]. intros ks' F _ vs L H. inversion F. cbn [map each_kid ptr_if]. rewrite (set_nth_same i vs _ H). reflexivity. }
  split; [reflexivity|]. intros ks' F _ vs L H. cbn [urls] in F. inversion F as [|? e' ? r S' F']; subst. inversion F'; subst. clear F F'.
  apply seen_inv in S' as (sp' & ks & -> & F & _). rewrite elems_filter in F by exact (url_elems (s :: l)).
  cbn [map]. rewrite waiting_elem. cbn [each_kid]. rewrite walk_elem.
  do 7 (destruct vs as [|? vs]; [discriminate L|]). destruct vs; [|discriminate L].
  assert (En : data_enter (KElem sp' place [] (map waiting ks) (dec_elem sp' place [] (map waiting ks))) (DOuter [v; v0; v1; v2; v3; v4; v5]) = Ok (Entered (DUrls b [] [v; v0; v1; v2; v3; v4; v5])))
    by (destruct P as [(-> & -> & _)|(-> & -> & _)]; reflexivity).
  rewrite En. cbn [bind]. rewrite each_filter, (urls_read b (s :: l) _ F). cbn [bind app map].
  destruct P as [(-> & -> & ->)|(-> & -> & ->)]; reflexivity.
Qed.
Lemma governance_part v gov : everywhere one_ok v -> wt (TPtr (TRef "DataGovernance")) v -> xsane (TPtr (TRef "DataGovernance")) v ->
  (if nonnil v then nenc (annotate v) (TPtr (TRef "DataGovernance")) false "governance" else Ok []) = Ok gov ->
  data_part gov 4 (bptr (back_of v) (TRef "DataGovernance")).
Proof.
  intros Ev W S E. apply wt_ptr in W as [->|(x & -> & W)].
  { injection E as <-. split; [reflexivity|]. intros ks' F _ vs L H. inversion F. cbn [map each_kid]. change (bptr (back_of (VPtr None)) (TRef "DataGovernance")) with (VPtr None). rewrite (set_nth_same 4 vs _ H). reflexivity. }
  cbn [nonnil] in E.
  pose proof (ptr_one (TRef "DataGovernance") x false "governance" gov eq_refl (everywhere_here _ _ (everywhere_ptr x Ev) (TRef "DataGovernance") eq_refl) W S E) as H.
  rewrite (struct_back (TRef "DataGovernance") fields_DataGovernance) in H by (auto; reflexivity). destruct H as (e & -> & N & D).
  rewrite (ptr_struct (TRef "DataGovernance") fields_DataGovernance) by (auto; reflexivity).
  split; [destruct e; [destruct N|reflexivity]|]. intros ks' F T vs L H. inversion F as [|? e' ? r S' F']; subst. inversion F'; subst. inversion T as [|? ? Sh _]; subst.
  specialize (D e' S' Sh). change (element_name (TRef "DataGovernance") "governance") with "governance" in N.
  open_seen e' S' N. cbn [map]. rewrite waiting_elem. cbn [each_kid]. rewrite walk_elem.
  do 7 (destruct vs as [|? vs]; [discriminate L|]). destruct vs; [|discriminate L]. cbn [data_enter].
  change (String.eqb "governance" "classification") with false. change (String.eqb "governance" "governance") with true. cbv iota. cbn [fresh] in D. rewrite D. reflexivity.
Qed.
Lemma last_attr_if m n s as_ old : last_attr m (attr_if n s ++ as_) old = last_attr m as_ (if (String.eqb n m && negb (String.eqb s ""))%bool then VStr (xml_clean s) else old).
Proof. unfold attr_if. destruct (String.eqb s ""); cbn [app last_attr attr negb andb]; [rewrite Bool.andb_false_r; reflexivity|]. unfold attr. cbn [last_attr]. destruct (String.eqb n m); reflexivity. Qed.
Lemma hook_data vs : below one_ok (VStruct vs) -> hook_at (TRef "DataClassification") MData fields_DataClassification vs.
Proof.
  intros Bl name els Wz S E. unfold fields_DataClassification in Wz. unzip Wz. cbn [f_ty] in *. destruct S as (_ & _ & _ & _ & S & _). cbn [f_ty] in *.
  pose proof (below_nth _ 4%nat _ Bl eq_refl) as Ev. clear Bl.
  apply wt_str in Wf, Wf0, Wf1, Wf2. destruct Wf as (flow & ->), Wf0 as (cls & ->), Wf1 as (dn & ->), Wf2 as (de & ->). rename v3 into gov_, v4 into src, v5 into dst.
  cbn [map back_method]. rewrite (strings_back src), (strings_back dst) by assumption. unfold bclean, bstr. rewrite !bval_back. cbn [str_of].
  cbn [map marshal] in E. unfold set in E. rewrite !nval_annotate in E.
  apply bind_ok in E as (gov & Eg & E). unfold filled, nstr in E. rewrite !nval_annotate in E. cbv beta zeta in E. rewrite ?nval_annotate in E. cbn [str_of] in E.
  fold (urls "source" (strings src)) (urls "destination" (strings dst)) in E. injection E as <-.
  destruct (governance_part gov_ gov Ev Wf3 S Eg) as (Ng & Rg).
  destruct (urls_part "source" true 5 (strings src)) as (Ns & Rs); [auto|]. destruct (urls_part "destination" false 6 (strings dst)) as (Nd & Rd); [auto|].
  set (cl := if (_ || _)%bool then _ else _).
  assert (Nc : forallb is_elem cl = true) by (unfold cl; destruct (_ || _)%bool; reflexivity).
  eexists. split; [reflexivity|]. split; [reflexivity|]. intros sp l a ks Se T.
  apply seen_inv in Se as (sp' & ks' & Q & F & _). injection Q as -> -> -> ->.
  rewrite elems_filter in F by (rewrite !forallb_app, Nc, Ng, Ns, Nd; reflexivity).
  apply Forall2_app_inv_l in F as (c' & r' & Fc & F & Eq). apply Forall2_app_inv_l in F as (g' & r1 & Fg & F & ->). apply Forall2_app_inv_l in F as (s' & d' & Fs & Fd & ->).
  pose proof (short_kids _ _ _ _ T) as Sh. rewrite Eq in Sh. apply Forall_app in Sh as (Shc & Sh). apply Forall_app in Sh as (Shg & Sh). apply Forall_app in Sh as (Shs & Shd).
  cbn [unmarshal]. change (zeros fields_DataClassification) with [VStr ""; VStr ""; VStr ""; VStr ""; VPtr None; VPtr None; VPtr None]. cbv iota.
  rewrite walk_all_each, each_filter, Eq, !map_app.
  replace (last_attr "name" _ _) with (VStr (xml_clean dn)).
  2: { rewrite last_attr_if, <- (app_nil_r (attr_if "description" de)), last_attr_if. cbn [last_attr]. change (String.eqb "description" "name") with false. change (String.eqb "name" "name") with true. cbn [andb].
       destruct (String.eqb_spec dn ""); [subst|]; reflexivity. }
  replace (last_attr "description" _ _) with (VStr (xml_clean de)).
  2: { rewrite last_attr_if, <- (app_nil_r (attr_if "description" de)), last_attr_if. cbn [last_attr]. change (String.eqb "description" "description") with true. change (String.eqb "name" "description") with false. cbn [andb].
       destruct (String.eqb_spec de ""); [subst|]; reflexivity. }
  rewrite each_app.
  assert (Cl : each_kid (walk data_enter data_leave) (map waiting c') (DOuter [VStr ""; VStr ""; VStr (xml_clean dn); VStr (xml_clean de); VPtr None; VPtr None; VPtr None]) =
               Ok (DOuter [VStr (xml_clean flow); VStr (xml_clean cls); VStr (xml_clean dn); VStr (xml_clean de); VPtr None; VPtr None; VPtr None])).
  { unfold cl in Fc. unfold nonempty in Fc. cbn [str_of] in Fc. destruct (String.eqb_spec cls ""), (String.eqb_spec flow ""); cbn [negb orb] in Fc; try (inversion Fc; subst; reflexivity).
    all: apply seen_single in Fc as (e' & -> & S'); apply seen_texts in S' as (sp2 & ->); cbn [map]; rewrite waiting_elem; cbn [each_kid]; rewrite walk_elem; cbn [data_enter];
      change (String.eqb "classification" "classification") with true; cbv iota;
      match goal with |- context[decode_fresh (dec_elem ?sp ?l ?a (map waiting (text ?s))) TStr] => pose proof (fresh_text sp l a s) as H; cbn [fresh] in H; rewrite H; clear H end; cbn [bind].
    all: rewrite <- (app_nil_r (attr_if "flow" _)), last_attr_if; cbn [last_attr]; change (String.eqb "flow" "flow") with true; cbn [andb];
      repeat match goal with H : ?x <> "" |- _ => rewrite (proj2 (String.eqb_neq _ _) H) end; repeat match goal with H : ?x = "" |- _ => rewrite H end; reflexivity. }
  rewrite Cl. cbn [bind]. rewrite each_app. rewrite (Rg g' Fg Shg) by reflexivity. cbn [bind set_nth]. rewrite each_app. rewrite (Rs s' Fs Shs) by reflexivity. cbn [bind set_nth].
  rewrite (Rd d' Fd Shd) by reflexivity. reflexivity.
Qed.

(** ** MDefinitions *)
Definition kids_of (v : val) : list val := match v with VPtr (Some (VSlice (Some l))) => l | _ => [] end.
Lemma pointee_slice t v : wt (TPtr (TSlice t)) v -> pointee (annotate v) = map annotate (kids_of v) /\ bpointee (back_of v) = map back_of (kids_of v) /\ list_all (wt t) (kids_of v).
Proof. intros W. apply wt_ptr in W as [->|(x & -> & W)]; [repeat split|]. apply wt_slice in W as [->|(l & -> & W)]; repeat split. exact W. Qed.
Lemma everywhere_slice t v : wt (TPtr (TSlice t)) v -> everywhere one_ok v -> Forall (everywhere one_ok) (kids_of v).
Proof.
  intros W E. apply wt_ptr in W as [->|(x & -> & W)]; [constructor|]. apply everywhere_ptr in E. apply wt_slice in W as [->|(l & -> & _)]; [constructor|].
  apply everywhere_below in E. cbn [below] in E. apply list_all_Forall in E. exact E.
Qed.
Lemma sane_slice t v : wt (TPtr (TSlice t)) v -> xsane (TPtr (TSlice t)) v -> list_all (xsane t) (kids_of v).
Proof. intros W S. apply wt_ptr in W as [->|(x & -> & W)]; [exact I|]. apply wt_slice in W as [->|(l & -> & _)]; [exact I|]. exact S. Qed.
Definition in_patents (s : defs_state) : Prop := match s with FPatents _ _ _ => True | _ => False end.
Definition add_patent (s : defs_state) (v : val) : defs_state := match s with FPatents l a b => FPatents (l ++ [v]) a b | _ => s end.
Definition in_standards (s : defs_state) : Prop := match s with FStandards _ _ _ => True | _ => False end.
Definition add_standard (s : defs_state) (v : val) : defs_state := match s with FStandards l a b => FStandards (l ++ [v]) a b | _ => s end.
Lemma add_patents l : forall p a b, fold_left add_patent l (FPatents p a b) = FPatents (p ++ l) a b.
Proof. induction l as [|x l IH]; intros; cbn [fold_left add_patent]; [rewrite app_nil_r; reflexivity|]. rewrite IH, <- app_assoc. reflexivity. Qed.
Lemma add_standards l : forall p a b, fold_left add_standard l (FStandards p a b) = FStandards (p ++ l) a b.
Proof. induction l as [|x l IH]; intros; cbn [fold_left add_standard]; [rewrite app_nil_r; reflexivity|]. rewrite IH, <- app_assoc. reflexivity. Qed.
Lemma patent_adds x : everywhere one_ok x -> wt (TRef "PatentChoice") x -> xsane (TRef "PatentChoice") x ->
  adds in_patents (walk defs_enter defs_leave) add_patent enc_patent back_patent x.
Proof.
  intros Ev W S els E. destruct (wt_struct (TRef "PatentChoice") _ _ eq_refl W) as (vs & -> & Wz). unfold fields_PatentChoice in Wz. clear W. unzip Wz. cbn [f_ty] in *.
  destruct S as (Sp & Sf & _). cbn [f_ty] in *. rename v into patent, v0 into family. apply everywhere_below in Ev.
  pose proof (below_nth _ 0%nat _ Ev eq_refl) as Ep. pose proof (below_nth _ 1%nat _ Ev eq_refl) as Ef. clear Ev.
  unfold enc_patent in E. change (nsubs (annotate (VStruct [patent; family]))) with (map annotate [patent; family]) in E. cbn [map] in E. unfold set in E. rewrite !nval_annotate in E.
  unfold back_patent. change (bsubs (back_of (VStruct [patent; family]))) with (map back_of [patent; family]). cbn [map]. unfold bset. rewrite !bval_back.
  apply wt_ptr in Wf as [->|(p & -> & Wp)]; cbn [nonnil] in *.
  - apply wt_ptr in Wf0 as [->|(p & -> & Wp)]; cbn [nonnil] in *; [injection E as <-; reflexivity|].
    pose proof (ptr_one (TRef "PatentFamily") p false "patentFamily" els eq_refl (everywhere_here _ _ (everywhere_ptr p Ef) (TRef "PatentFamily") eq_refl) Wp Sf E) as H.
    rewrite (struct_back (TRef "PatentFamily") fields_PatentFamily) in H by (auto; reflexivity). destruct H as (e & -> & N & D).
    rewrite (ptr_struct (TRef "PatentFamily") fields_PatentFamily) by (auto; reflexivity).
    exists e. split; [reflexivity|]. split; [destruct e; [destruct N|reflexivity]|]. intros e' Se T st Is. specialize (D e' Se T).
    change (element_name (TRef "PatentFamily") "patentFamily") with "patentFamily" in N. open_seen e' Se N. rewrite waiting_elem, walk_elem. destruct st as [| |pl sa sb|]; try contradiction. cbn [defs_enter].
    change (String.eqb "patentFamily" "patent") with false. change (String.eqb "patentFamily" "patentFamily") with true. cbv iota.
    cbn [fresh] in D. rewrite D. reflexivity.
  - pose proof (ptr_one (TRef "Patent") p false "patent" els eq_refl (everywhere_here _ _ (everywhere_ptr p Ep) (TRef "Patent") eq_refl) Wp Sp E) as H.
    rewrite (struct_back (TRef "Patent") fields_Patent) in H by (auto; reflexivity). destruct H as (e & -> & N & D).
    rewrite (ptr_struct (TRef "Patent") fields_Patent) by (auto; reflexivity).
    exists e. split; [reflexivity|]. split; [destruct e; [destruct N|reflexivity]|]. intros e' Se T st Is. specialize (D e' Se T).
    change (element_name (TRef "Patent") "patent") with "patent" in N. open_seen e' Se N. rewrite waiting_elem, walk_elem. destruct st as [| |pl sa sb|]; try contradiction. cbn [defs_enter].
    change (String.eqb "patent" "patent") with true. cbv iota. cbn [fresh] in D. rewrite D. reflexivity.
Qed.
Lemma hook_definitions vs : below one_ok (VStruct vs) -> hook_at (TRef "Definitions") MDefinitions fields_Definitions vs.
Proof.
  intros Bl name els Wz S E. unfold fields_Definitions in Wz. unzip Wz. cbn [f_ty] in *. destruct S as (Ss & Sp & _). cbn [f_ty] in *. rename v into standards, v0 into patents.
  pose proof (below_nth _ 0%nat _ Bl eq_refl) as Es. pose proof (below_nth _ 1%nat _ Bl eq_refl) as Ep. clear Bl.
  cbn [map back_method marshal] in *. unfold set in E. rewrite !nval_annotate in E.
  rewrite (slice_ptr (TRef "StandardDefinition") fields_StandardDefinition) by (auto; reflexivity). rename Wf into Ws, Wf0 into Wp.
  destruct (pointee_slice _ _ Ws) as (Qs & _ & Wls). destruct (pointee_slice _ _ Wp) as (Qp & Qb & Wlp). rewrite Qs, Qp in E. rewrite Qb.
  pose proof (everywhere_slice _ _ Ws Es) as Els. pose proof (everywhere_slice _ _ Wp Ep) as Elp. pose proof (sane_slice _ _ Ws Ss) as Sls. pose proof (sane_slice _ _ Wp Sp) as Slp.
  apply bind_ok in E as (ka & Ea & E). apply bind_ok in E as (kb & Eb & E). injection E as <-.
  assert (A : forallb is_elem ka = true /\ forall ks', Forall2 seen ka ks' -> Forall short ks' ->
    each_kid (walk defs_enter defs_leave) (map waiting ks') (FOuter (VPtr None) (VPtr None)) = Ok (FOuter (ptr_if (items (TRef "StandardDefinition") standards)) (VPtr None))).
  { destruct (nonnil standards) eqn:Ns.
    - unfold within in Ea. apply bind_ok in Ea as (ss & Ea & Q). injection Q as <-. split; [reflexivity|]. intros ks' F T.
      apply seen_single in F as (e' & -> & Se). apply Forall_inv in T. apply seen_inv in Se as (sp' & ks2 & -> & F & _).
      destruct (fresh_list (TRef "StandardDefinition") false "standard" (kids_of standards) eq_refl) with (els := ss) as (N & R); auto.
      { eapply Forall_impl; [|exact Els]. intros x Ex. apply (everywhere_here _ _ Ex). reflexivity. }
      rewrite elems_filter in F by (apply (named_elems _ _ N)). specialize (R _ F (short_kids _ _ _ _ T)).
      cbn [map]. rewrite waiting_elem. cbn [each_kid]. rewrite walk_elem. cbn [defs_enter]. change (String.eqb "standards" "standards") with true. cbv iota. cbn [bind].
      rewrite each_filter.
      rewrite (each_fresh in_standards (walk defs_enter defs_leave) add_standard (TRef "StandardDefinition") "standard") with (ws := items (TRef "StandardDefinition") standards).
      + rewrite add_standards. cbn [bind app defs_leave]. destruct (items (TRef "StandardDefinition") standards); reflexivity.
      + intros [] v H; exact H.
      + intros e s Ne Is. destruct e as [|sp l a ks]; [destruct Ne|]. cbn [named] in Ne. subst l. rewrite waiting_elem, walk_elem. destruct s as [|p sa sb| |]; try contradiction. cbn [defs_enter].
        change (String.eqb "standard" "standard") with true. cbv iota. cbn [fresh]. destruct (decode_fresh _ _); reflexivity.
      + unfold items. assert (X : match standards with VPtr (Some (VSlice (Some l))) => map back_of l | _ => [] end = map back_of (kids_of standards)).
        { destruct standards as [| | | |[[| | | | |[]|]|]| |]; reflexivity. } rewrite X. exact R.
      + apply (seen_names _ _ _ F). exact N.
      + exact I.
    - injection Ea as <-. split; [reflexivity|]. intros ks' F _. inversion F. apply wt_ptr in Ws as [->|(x & -> & _)]; [reflexivity|discriminate]. }
  assert (B : forallb is_elem kb = true /\ forall ks' a, Forall2 seen kb ks' -> Forall short ks' ->
    each_kid (walk defs_enter defs_leave) (map waiting ks') (FOuter a (VPtr None)) = Ok (FOuter a (ptr_if (somes back_patent (map back_of (kids_of patents)))))).
  { destruct (nonnil patents) eqn:Np.
    - unfold within in Eb. apply bind_ok in Eb as (ss & Eb & Q). injection Q as <-. split; [reflexivity|]. intros ks' a F T.
      apply seen_single in F as (e' & -> & Se). apply Forall_inv in T. apply seen_inv in Se as (sp' & ks2 & -> & F & _).
      assert (Ad : Forall (adds in_patents (walk defs_enter defs_leave) add_patent enc_patent back_patent) (kids_of patents)).
      { apply list_all_Forall in Wlp, Slp. rewrite Forall_forall in *. intros x X. apply patent_adds; auto. }
      destruct (collect in_patents (walk defs_enter defs_leave) add_patent enc_patent back_patent (kids_of patents)) with (els := ss) as (N & R); [intros [] ? H; exact H|exact Ad|exact Eb|].
      rewrite elems_filter in F by exact N.
      cbn [map]. rewrite waiting_elem. cbn [each_kid]. rewrite walk_elem. cbn [defs_enter]. change (String.eqb "patents" "standards") with false. change (String.eqb "patents" "patents") with true. cbv iota. cbn [bind].
      rewrite each_filter, (R _ F (short_kids _ _ _ _ T)) by exact I. rewrite add_patents. cbn [bind app defs_leave]. destruct (somes back_patent (map back_of (kids_of patents))); reflexivity.
    - injection Eb as <-. split; [reflexivity|]. intros ks' a F _. inversion F. apply wt_ptr in Wp as [->|(x & -> & _)]; [reflexivity|discriminate]. }
  destruct A as (Na & Ra), B as (Nb & Rb).
  eexists. split; [reflexivity|]. split; [reflexivity|]. intros sp l a ks Se T. apply seen_inv in Se as (sp' & ks' & Q & F & _). injection Q as -> -> -> ->.
  rewrite elems_filter in F by (rewrite !forallb_app, Na, Nb; reflexivity). apply Forall2_app_inv_l in F as (a' & b' & Fa & Fb & Eq).
  pose proof (short_kids _ _ _ _ T) as Sh. rewrite Eq in Sh. apply Forall_app in Sh as (Sha & Shb).
  cbn [unmarshal]. change (zeros fields_Definitions) with [VPtr None; VPtr None]. cbv iota. rewrite walk_all_each, each_filter, Eq, map_app, each_app.
  rewrite (Ra a' Fa Sha). cbn [bind]. rewrite (Rb b' _ Fb Shb). reflexivity.
Qed.
End Limits.
