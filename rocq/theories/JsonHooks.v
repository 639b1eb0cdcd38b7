(** Reading back what the MarshalJSON methods write. *)
From Verif Require Import Base Types Univ TypeTable Wt Reify ReifyBase Consts LinkModel Version VersionProofs Numbers NumbersProofs Utf8 Utf8Proofs GobModel GobProofs JsonModel JsonBack JsonProofs.
From Coq Require Import Lia.
Local Open Scope string_scope.

Definition good (v : val) : Prop :=
  forall t, ok_ty t = true -> wt t v -> sane t v -> decodes t (fun esc => jenc esc t v) (jback t v).
(** The fields of a struct behind at most one pointer are good. *)
Definition good_parts (v : val) : Prop :=
  forall vs, v = VStruct vs \/ v = VPtr (Some (VStruct vs)) -> Forall good vs.

Lemma rows_of vs : Forall good vs -> forall fs, forallb (fun f => ok_ty (f_ty f)) fs = true ->
  zip_all (fun f x => wt (f_ty f) x) vs fs -> zip_all (fun f x => sane (f_ty f) x) vs fs ->
  rows fs vs (encs vs fs) (backs vs fs).
Proof.
  induction 1 as [|v vs G _ IH]; intros [|f fs] K W S; cbn in W, S; try contradiction; [constructor|].
  cbn [forallb] in K. apply andb_prop in K as (K1 & K2). destruct W as (W1 & W2), S as (S1 & S2).
  cbn [encs backs]. constructor; [|apply IH; assumption]. exact (G (f_ty f) K1 W1 S1).
Qed.

Lemma wt_ptr t v : wt (TPtr t) v -> v = VPtr None \/ exists x, v = VPtr (Some x) /\ wt t x.
Proof. destruct v as [| | | |[x|]| |]; cbn; try discriminate; try contradiction; eauto. Qed.
Lemma wt_slice t v : wt (TSlice t) v -> v = VSlice None \/ exists l, v = VSlice (Some l) /\ list_all (wt t) l.
Proof. destruct v as [| | | | |[x|]|]; cbn; try discriminate; try contradiction; eauto. Qed.
Lemma wt_strk t v : kind_of t = KStr -> wt t v -> exists s, v = VStr s.
Proof. intros K. destruct v; cbn [wt]; rewrite K; try discriminate; try contradiction; eauto. Qed.
Lemma wt_str v : wt TStr v -> exists s, v = VStr s.
Proof. apply wt_strk. reflexivity. Qed.
Lemma wt_struct t fs v : kind_of t = KStruct fs -> wt t v -> exists vs, v = VStruct vs /\ zip_all (fun f x => wt (f_ty f) x) vs fs.
Proof. intros K. destruct v; cbn [wt]; rewrite K; try discriminate; try contradiction; eauto. Qed.
Lemma sane_struct t fs vs : kind_of t = KStruct fs -> sane t (VStruct vs) -> zip_all (fun f x => sane (f_ty f) x) vs fs.
Proof. intros K. cbn [sane]. unfold fields_of. rewrite K. trivial. Qed.
Lemma fields_of_kind t fs : kind_of t = KStruct fs -> fields_of t = fs.
Proof. unfold fields_of. intros ->. reflexivity. Qed.

(** A pointer to a struct without MarshalJSON. *)
Lemma enc_ptr_struct t fs vs esc o : kind_of t = KStruct fs -> marshal_hook t = HNone ->
  jenc esc (TPtr t) (VPtr (Some (VStruct vs))) = Ok o -> enc_struct esc fs vs (encs vs fs) = Ok o.
Proof. intros K H. change (jenc esc (TPtr t) (VPtr (Some (VStruct vs)))) with (jenc esc t (VStruct vs)). rewrite jenc_struct, H, (fields_of_kind t fs K). trivial. Qed.
Lemma back_ptr_struct t fs vs : kind_of t = KStruct fs -> marshal_hook t = HNone ->
  jback (TPtr t) (VPtr (Some (VStruct vs))) = VPtr (Some (VStruct (back_fields fs vs (backs vs fs)))).
Proof.
  intros K H. change (jback (TPtr t) (VPtr (Some (VStruct vs)))) with (if nulls t (VStruct vs) then VPtr None else VPtr (Some (jback t (VStruct vs)))).
  cbn [nulls]. rewrite H, jback_struct, H, (fields_of_kind t fs K). reflexivity.
Qed.

Lemma enc_struct_obj esc fs vs es o : enc_struct esc fs vs es = Ok o -> exists ms, o = OObj ms.
Proof. intros E. apply bind_ok in E as (ms & _ & E). injection E as <-. eauto. Qed.

Lemma plain_unmarshal t fs vs es bs esc o : kind_of t = KStruct fs -> rows fs vs es bs -> enc_struct esc fs vs es = Ok o ->
  unmarshal_into (shape_of (erase o)) t = Ok (VStruct (back_fields fs vs bs)).
Proof. intros K R E. unfold unmarshal_into. rewrite (plain_self t fs vs es bs esc o K R E). reflexivity. Qed.
Lemma cross_unmarshal t fs2 fs vs es bs esc o : kind_of t = KStruct fs2 -> rows fs vs es bs -> enc_struct esc fs vs es = Ok o ->
  cross_ok fs fs2 [] = true ->
  unmarshal_into (shape_of (erase o)) t = Ok (VStruct (cross fs (back_fields fs vs bs) fs2 (zeros_of fs2))).
Proof. intros K R E C. unfold unmarshal_into. rewrite (plain_cross t fs2 fs vs es bs esc o K R E C). reflexivity. Qed.
Lemma peek_cross fs vs es bs esc o go js x : rows fs vs es bs -> enc_struct esc fs vs es = Ok o ->
  cross_ok fs (peek_field go js) [] = true ->
  cross fs (back_fields fs vs bs) (peek_field go js) [VStr ""] = [VStr x] ->
  peek (shape_of (erase o)) go js = Ok x.
Proof.
  intros R E C X. unfold peek. change [VStr ""] with (zeros_of (peek_field go js)).
  rewrite (struct_cross fs vs es bs esc o _ R E C). change (zeros_of (peek_field go js)) with [VStr ""]. rewrite X. reflexivity.
Qed.

(** The struct behind a pointer field: its parts, what is written, what comes back. *)
Lemma parts t fs v : kind_of t = KStruct fs -> marshal_hook t = HNone -> good_parts v -> wt (TPtr t) v -> sane (TPtr t) v ->
  v = VPtr None \/
  exists vs, v = VPtr (Some (VStruct vs)) /\ rows fs vs (encs vs fs) (backs vs fs) /\
    (forall esc o, jenc esc (TPtr t) v = Ok o -> enc_struct esc fs vs (encs vs fs) = Ok o) /\
    jback (TPtr t) v = VPtr (Some (VStruct (back_fields fs vs (backs vs fs)))).
Proof.
  intros K H G W S. apply wt_ptr in W as [->|(x & -> & W)]; [auto|right].
  destruct (wt_struct t fs x K W) as (vs & -> & Wf). exists vs. split; [reflexivity|]. split; [|split].
  - apply rows_of; [apply G; auto|eapply struct_ok, K|exact Wf|eapply sane_struct; [exact K|exact S]].
  - intros esc o. apply enc_ptr_struct; assumption.
  - apply back_ptr_struct; assumption.
Qed.

Definition hook_ok (h : hook) (t : ty) (fs : list field) : Prop :=
  forall vs o, zip_all (fun f x => wt (f_ty f) x) vs fs -> zip_all (fun f x => sane (f_ty f) x) vs fs ->
    Forall good vs -> Forall good_parts vs ->
    marshal h fs vs (encs vs fs) = Ok o ->
    unmarshal h (shape_of (erase o)) t (zeros_of fs) = Ok (VStruct (back_choice h fs vs (backs vs fs))).

Ltac fields2 W S vs v v0 :=
  destruct vs as [|v [|v0 [|? vs]]]; cbn [zip_all f_ty] in W, S;
  [contradiction|destruct W as (_ & W); contradiction| |destruct W as (_ & _ & W); contradiction].
Ltac fields3 W S vs v v0 v1 :=
  destruct vs as [|v [|v0 [|v1 [|? vs]]]]; cbn [zip_all f_ty] in W, S;
  [contradiction|destruct W as (_ & W); contradiction|destruct W as (_ & _ & W); contradiction| |destruct W as (_ & _ & _ & W); contradiction].
Ltac split_foralls :=
  repeat match goal with
         | H : Forall _ (_ :: _) |- _ => apply Forall_cons_iff in H; destruct H
         | H : Forall _ [] |- _ => clear H
         | H : _ /\ _ |- _ => destruct H
         | H : True |- _ => clear H
         end.

Lemma nonempty_utf8 s : nonempty (VStr (to_utf8 s)) = nonempty (VStr s).
Proof.
  unfold nonempty. cbn [str_of]. destruct (String.eqb_spec s "") as [->|N]; [reflexivity|].
  destruct (String.eqb_spec (to_utf8 s) "") as [E|]; [|reflexivity]. exfalso; apply N, to_utf8_empty, E.
Qed.
Lemma eqb_utf8 s : String.eqb (to_utf8 s) "" = String.eqb s "".
Proof. pose proof (nonempty_utf8 s) as H. unfold nonempty in H. cbn [str_of] in H. destruct (String.eqb (to_utf8 s) ""), (String.eqb s ""); cbn in H; congruence. Qed.

Lemma hook_environment : hook_ok HEnvironmentVariable (TRef "EnvironmentVariableChoice") fields_EnvironmentVariableChoice.
Proof.
  intros vs o W S G P E. unfold fields_EnvironmentVariableChoice in W, S.
  fields2 W S vs prop content. split_foralls.
  destruct (wt_str content) as (s & ->); [assumption|].
  cbn [encs backs fields_EnvironmentVariableChoice f_ty marshal] in E. cbn [encs backs fields_EnvironmentVariableChoice f_ty].
  assert (V : forall o', (if nonempty (VStr s) then jenc true TStr (VStr s) else Ok (OObj [])) = Ok o' ->
              unmarshal HEnvironmentVariable (shape_of (erase o')) (TRef "EnvironmentVariableChoice") [VPtr None; VStr ""] = Ok (VStruct [VPtr None; VStr (to_utf8 s)])).
  { intros o'. unfold nonempty. cbn [str_of]. destruct (String.eqb_spec s "") as [->|N]; cbn [negb].
    - intros [= <-]. reflexivity.
    - cbn [jenc]. intros [= <-]. reflexivity. }
  destruct (parts (TRef "Property") fields_Property prop) as [->|(ps & -> & R & En & Bk)]; try assumption; try reflexivity.
  - apply V. exact E.
  - rewrite Bk. destruct (zero_value (VStruct ps)) eqn:Z; cbn [negb] in E.
    + cbn [back_choice negb]. rewrite Z. cbn [negb]. apply V. exact E.
    + cbn [back_choice negb]. rewrite Z. cbn [negb]. apply En in E.
      assert (W' : wt (TRef "Property") (VStruct ps)) by assumption. 
      change (zip_all (fun f x => wt (f_ty f) x) ps fields_Property) in W'. unfold fields_Property in W'.
      destruct ps as [|a [|b [|c ps]]]; cbn [zip_all f_ty] in W'; try tauto. destruct W' as (Wa & Wb & _).
      destruct (wt_str a Wa) as (sa & ->), (wt_str b Wb) as (sb & ->).
      cbn [unmarshal zeros_of map fields_EnvironmentVariableChoice].
      rewrite (plain_self (TRef "Property") fields_Property _ _ _ true o eq_refl R E).
      cbn [encs backs fields_Property f_ty jback].
      change (back_fields fields_Property [VStr sa; VStr sb] [VStr (to_utf8 sa); VStr (to_utf8 sb)]) with [VStr (to_utf8 sa); VStr (to_utf8 sb)].
      change (zeros_of fields_EnvironmentVariableChoice) with [VPtr None; VStr ""].
      cbv iota beta. cbn [zero_value forallb]. rewrite !eqb_utf8. cbn [zero_value forallb] in Z. rewrite Z. reflexivity.
Qed.

Lemma hook_dataset : hook_ok HDataset (TRef "MLDatasetChoice") fields_MLDatasetChoice.
Proof.
  intros vs o W S G P E. unfold fields_MLDatasetChoice in W, S.
  fields2 W S vs ref data. split_foralls.
  destruct (wt_str ref) as (s & ->); [assumption|].
  cbn [encs backs fields_MLDatasetChoice f_ty marshal] in E. cbn [encs backs fields_MLDatasetChoice f_ty back_choice].
  destruct (nonempty (VStr s)) eqn:N.
  - assert (R : rows fields_mlDatasetChoiceRefJSON [VStr s] [fun esc => jenc esc TStr (VStr s)] [VStr (to_utf8 s)]).
    { constructor; [|constructor]. match goal with G : good (VStr s) |- _ => exact (G TStr eq_refl eq_refl I) end. }
    cbn [unmarshal]. change (zeros_of fields_MLDatasetChoice) with [VStr ""; VPtr None]. cbv iota beta.
    rewrite (plain_unmarshal (TRef "mlDatasetChoiceRefJSON") fields_mlDatasetChoiceRefJSON _ _ _ true o eq_refl R E). cbn [bind].
    change (back_fields fields_mlDatasetChoiceRefJSON [VStr s] [VStr (to_utf8 s)]) with [VStr (to_utf8 s)]. cbv iota beta.
    change (negb (String.eqb (to_utf8 s) "")) with (nonempty (VStr (to_utf8 s))). rewrite nonempty_utf8, N. reflexivity.
  - destruct (parts (TRef "ComponentData") fields_ComponentData data) as [->|(ds & -> & R & En & Bk)]; try assumption; try reflexivity.
    + cbn [nonnil] in E. injection E as <-. reflexivity.
    + cbn [nonnil] in E. apply En in E. rewrite Bk. cbn [unmarshal].
      change (zeros_of fields_MLDatasetChoice) with [VStr ""; VPtr None]. cbv iota beta.
      rewrite (cross_unmarshal (TRef "mlDatasetChoiceRefJSON") fields_mlDatasetChoiceRefJSON _ _ _ _ true o eq_refl R E eq_refl).
      rewrite (plain_unmarshal (TRef "ComponentData") fields_ComponentData _ _ _ true o eq_refl R E). cbn [bind].
      assert (C : forall bs, cross fields_ComponentData bs fields_mlDatasetChoiceRefJSON (zeros_of fields_mlDatasetChoiceRefJSON) = [VStr ""]).
      { intros bs. do 9 (destruct bs as [|? bs]; [reflexivity|]). reflexivity. }
      rewrite C. cbv iota beta. cbn [negb String.eqb]. reflexivity.
Qed.

(** What is behind a pointer field, without UnmarshalJSON. *)
Lemma through t x esc o : good (VPtr (Some x)) -> ok_ty t = true -> wt t x -> sane t x -> unmarshal_hook t = HNone ->
  (forall t', t <> TPtr t') -> nulls t x = false -> jenc esc (TPtr t) (VPtr (Some x)) = Ok o ->
  unmarshal_into (shape_of (erase o)) t = Ok (jback t x).
Proof.
  intros G K W S H N Z E. specialize (G (TPtr t) K W S esc o E). rewrite jdec_eq in G.
  change (jback (TPtr t) (VPtr (Some x))) with (if nulls t x then VPtr None else VPtr (Some (jback t x))) in G. rewrite Z in G.
  change (zero_of (TPtr t)) with (VPtr None) in G. cbn [node] in G.
  assert (G' : match node (shape_of (erase o)) t (zero_of t) with DVal v err => DVal (some_ptr v) err | DAbort e => DAbort e end = DVal (VPtr (Some (jback t x))) None).
  { destruct (shape_of (erase o)); try exact G. discriminate. }
  unfold unmarshal_into. replace (plain (shape_of (erase o)) t (zero_of t)) with (node (shape_of (erase o)) t (zero_of t)).
  - destruct (node (shape_of (erase o)) t (zero_of t)); [|discriminate]. injection G' as -> ->. reflexivity.
  - destruct t; try (exfalso; eapply N; reflexivity); cbn [node]; rewrite H; reflexivity.
Qed.

Lemma hook_tools : hook_ok HTools (TRef "ToolsChoice") fields_ToolsChoice.
Proof.
  intros vs o W S G P E. unfold fields_ToolsChoice in W, S.
  fields3 W S vs tools comps servs. split_foralls.
  cbn [encs backs fields_ToolsChoice f_ty marshal] in E. cbn [encs backs fields_ToolsChoice f_ty back_choice].
  change (zeros_of fields_ToolsChoice) with [VPtr None; VPtr None; VPtr None].
  match goal with W : wt _ tools |- _ => destruct (wt_ptr _ _ W) as [->|(x & -> & Wx)] end.
  - cbn [nonnil andb] in E.
    destruct (nonnil comps || nonnil servs)%bool eqn:N; [|discriminate].
    assert (R : rows fields_toolsChoiceJSON [comps; servs]
                  [fun esc => jenc esc (TPtr (TSlice (TRef "Component"))) comps; fun esc => jenc esc (TPtr (TSlice (TRef "Service"))) servs]
                  [jback (TPtr (TSlice (TRef "Component"))) comps; jback (TPtr (TSlice (TRef "Service"))) servs]).
    { constructor; [|constructor; [|constructor]]; cbn [f_ty];
        match goal with G : good ?x |- decodes _ (fun esc => jenc _ _ ?x) _ => apply G; [reflexivity|assumption|assumption] end. }
    cbn [unmarshal].
    rewrite (plain_unmarshal (TRef "toolsChoiceJSON") fields_toolsChoiceJSON _ _ _ true o eq_refl R E). cbn [bind].
    assert (B : back_fields fields_toolsChoiceJSON [comps; servs] [jback (TPtr (TSlice (TRef "Component"))) comps; jback (TPtr (TSlice (TRef "Service"))) servs]
                = [jback (TPtr (TSlice (TRef "Component"))) comps; jback (TPtr (TSlice (TRef "Service"))) servs]).
    { match goal with W : wt _ comps |- _ => destruct (wt_ptr _ _ W) as [->|(? & -> & ?)] end;
        match goal with W : wt _ servs |- _ => destruct (wt_ptr _ _ W) as [->|(? & -> & ?)] end; reflexivity. }
    rewrite B. cbv iota beta. change (jback (TPtr (TSlice (TRef "Tool"))) (VPtr None)) with (VPtr None).
    match goal with W : wt _ comps |- _ => destruct (wt_ptr _ _ W) as [->|(c & -> & ?)] end;
      match goal with W : wt _ servs |- _ => destruct (wt_ptr _ _ W) as [->|(d & -> & ?)] end; try discriminate; cbn [jback]; change (elem_ty (TPtr ?t)) with t; cbv iota;
      try (destruct (nulls (TSlice (TRef "Component")) c)); try (destruct (nulls (TSlice (TRef "Service")) d)); reflexivity.
  - cbn [nonnil andb] in E. destruct (nonnil comps || nonnil servs)%bool eqn:N; [discriminate|].
    assert (comps = VPtr None) as ->.
    { match goal with W : wt _ comps |- _ => destruct (wt_ptr _ _ W) as [->|(? & -> & ?)] end; [reflexivity|discriminate]. }
    assert (servs = VPtr None) as ->.
    { match goal with W : wt _ servs |- _ => destruct (wt_ptr _ _ W) as [->|(? & -> & ?)] end; [reflexivity|discriminate]. }
    destruct (wt_slice _ _ Wx) as [->|(l & -> & Wl)].
    + injection E as <-. reflexivity.
    + assert (U : unmarshal_into (shape_of (erase o)) (TSlice (TRef "Tool")) = Ok (jback (TSlice (TRef "Tool")) (VSlice (Some l)))).
      { eapply through; try eassumption; try reflexivity. discriminate. }
      change (jenc true (TPtr (TSlice (TRef "Tool"))) (VPtr (Some (VSlice (Some l))))) with (jenc true (TSlice (TRef "Tool")) (VSlice (Some l))) in E.
      rewrite jenc_slice in E. apply bind_ok in E as (os & _ & E). injection E as <-. cbn [unmarshal]. rewrite U. reflexivity.
Qed.

Lemma hook_identity : hook_ok HIdentity (TRef "EvidenceIdentityChoice") fields_EvidenceIdentityChoice.
Proof.
  intros vs o W S G P E. unfold fields_EvidenceIdentityChoice in W, S.
  fields2 W S vs single many. split_foralls.
  cbn [encs backs fields_EvidenceIdentityChoice f_ty marshal] in E. cbn [encs backs fields_EvidenceIdentityChoice f_ty back_choice].
  change (zeros_of fields_EvidenceIdentityChoice) with [VPtr None; VPtr None].
  destruct (parts (TRef "EvidenceIdentity") fields_EvidenceIdentity single) as [->|(ds & -> & R & En & Bk)]; try assumption; try reflexivity.
  - change (jback (TPtr (TRef "EvidenceIdentity")) (VPtr None)) with (VPtr None).
    match goal with W : wt _ many |- _ => destruct (wt_ptr _ _ W) as [->|(x & -> & Wx)] end.
    + injection E as <-. reflexivity.
    + destruct (wt_slice _ _ Wx) as [->|(l & -> & Wl)].
      * injection E as <-. reflexivity.
      * cbn [nonnil andb] in E.
        assert (U : unmarshal_into (shape_of (erase o)) (TSlice (TRef "EvidenceIdentity")) = Ok (jback (TSlice (TRef "EvidenceIdentity")) (VSlice (Some l)))).
        { eapply through; try eassumption; try reflexivity. discriminate. }
        change (jenc true (TPtr (TSlice (TRef "EvidenceIdentity"))) (VPtr (Some (VSlice (Some l))))) with (jenc true (TSlice (TRef "EvidenceIdentity")) (VSlice (Some l))) in E.
        rewrite jenc_slice in E. apply bind_ok in E as (os & _ & E). injection E as <-. cbn [unmarshal]. cbn [erase shape_of]. cbv iota.
        cbn [erase shape_of] in U. rewrite U. reflexivity.
  - cbn [nonnil andb] in E. destruct (nonnil many) eqn:N; [discriminate|].
    assert (many = VPtr None) as ->.
    { match goal with W : wt _ many |- _ => destruct (wt_ptr _ _ W) as [->|(? & -> & ?)] end; [reflexivity|discriminate]. }
    rewrite Bk. apply En in E. pose proof (plain_unmarshal (TRef "EvidenceIdentity") fields_EvidenceIdentity _ _ _ true o eq_refl R E) as U.
    destruct (enc_struct_obj _ _ _ _ _ E) as (ms & ->). rewrite shape_obj in *. cbn [unmarshal]. rewrite U. reflexivity.
Qed.

Lemma hook_cert_state : hook_ok HCertState (TRef "CertificateState") fields_CertificateState.
Proof.
  intros vs o W S G P E. unfold fields_CertificateState in W, S.
  fields2 W S vs pre custom. split_foralls.
  cbn [encs backs fields_CertificateState f_ty marshal] in E. cbn [encs backs fields_CertificateState f_ty].
  change (zeros_of fields_CertificateState) with [VPtr None; VPtr None].
  destruct (parts (TRef "PredefinedCertificateState") fields_PredefinedCertificateState pre) as [->|(ds & -> & R & En & Bk)]; try assumption; try reflexivity.
  - destruct (parts (TRef "CustomCertificateState") fields_CustomCertificateState custom) as [->|(ds & -> & R & En & Bk)]; try assumption; try reflexivity.
    + injection E as <-. reflexivity.
    + cbn [nonnil andb] in E. apply En in E. rewrite Bk. cbn [unmarshal].
      rewrite (peek_cross _ _ _ _ true o "State" "state" "" R E eq_refl); [|destruct (backs ds fields_CustomCertificateState) as [|? [|? [|? [|? ?]]]], ds as [|? [|? [|? [|? ?]]]]; reflexivity].
      cbn [bind negb String.eqb]. rewrite (plain_unmarshal (TRef "CustomCertificateState") _ _ _ _ true o eq_refl R E). reflexivity.
  - cbn [nonnil andb] in E. destruct (nonnil custom) eqn:N; [discriminate|]. apply En in E. rewrite Bk.
    match goal with W : wt _ (VPtr (Some (VStruct ds))) |- _ => change (zip_all (fun f x => wt (f_ty f) x) ds fields_PredefinedCertificateState) in W; rename W into Wd end.
    unfold fields_PredefinedCertificateState in Wd.
    destruct ds as [|a [|b [|c ds]]]; cbn [zip_all f_ty] in Wd; try tauto. destruct Wd as (Wa & Wb & _).
    destruct (wt_str a Wa) as (sa & ->), (wt_str b Wb) as (sb & ->).
    assert (B : back_fields fields_PredefinedCertificateState [VStr sa; VStr sb] (backs [VStr sa; VStr sb] fields_PredefinedCertificateState) = [VStr (to_utf8 sa); VStr (to_utf8 sb)]).
    { cbn [backs fields_PredefinedCertificateState f_ty jback]. destruct sb; reflexivity. }
    cbn [unmarshal].
    rewrite (peek_cross _ _ _ _ true o "State" "state" (to_utf8 sa) R E eq_refl); [|rewrite B; reflexivity].
    cbn [bind back_choice]. rewrite B. cbv iota.
    destruct (String.eqb (to_utf8 sa) "") eqn:Z; cbn [negb].
    + rewrite (cross_unmarshal (TRef "CustomCertificateState") fields_CustomCertificateState _ _ _ _ true o eq_refl R E eq_refl). rewrite B. reflexivity.
    + rewrite (plain_unmarshal (TRef "PredefinedCertificateState") _ _ _ _ true o eq_refl R E). rewrite B. reflexivity.
Qed.

Lemma hook_cert_extension : hook_ok HCertExtension (TRef "CertificateExtension") fields_CertificateExtension.
Proof.
  intros vs o W S G P E. unfold fields_CertificateExtension in W, S.
  fields2 W S vs pre custom. split_foralls.
  cbn [encs backs fields_CertificateExtension f_ty marshal] in E. cbn [encs backs fields_CertificateExtension f_ty].
  change (zeros_of fields_CertificateExtension) with [VPtr None; VPtr None].
  destruct (parts (TRef "CommonCertificateExtension") fields_CommonCertificateExtension pre) as [->|(ds & -> & R & En & Bk)]; try assumption; try reflexivity.
  - destruct (parts (TRef "CustomCertificateExtension") fields_CustomCertificateExtension custom) as [->|(ds & -> & R & En & Bk)]; try assumption; try reflexivity.
    + injection E as <-. reflexivity.
    + cbn [nonnil andb] in E. apply En in E. rewrite Bk. cbn [unmarshal].
      rewrite (peek_cross _ _ _ _ true o "CommonExtensionName" "commonExtensionName" "" R E eq_refl); [|destruct (backs ds fields_CustomCertificateExtension) as [|? [|? [|? [|? ?]]]], ds as [|? [|? [|? [|? ?]]]]; reflexivity].
      cbn [bind negb String.eqb]. rewrite (plain_unmarshal (TRef "CustomCertificateExtension") _ _ _ _ true o eq_refl R E). reflexivity.
  - cbn [nonnil andb] in E. destruct (nonnil custom) eqn:N; [discriminate|]. apply En in E. rewrite Bk.
    match goal with W : wt _ (VPtr (Some (VStruct ds))) |- _ => change (zip_all (fun f x => wt (f_ty f) x) ds fields_CommonCertificateExtension) in W; rename W into Wd end.
    unfold fields_CommonCertificateExtension in Wd.
    destruct ds as [|a [|b [|c ds]]]; cbn [zip_all f_ty] in Wd; try tauto. destruct Wd as (Wa & Wb & _).
    destruct (wt_str a Wa) as (sa & ->), (wt_str b Wb) as (sb & ->).
    assert (B : back_fields fields_CommonCertificateExtension [VStr sa; VStr sb] (backs [VStr sa; VStr sb] fields_CommonCertificateExtension) = [VStr (to_utf8 sa); VStr (to_utf8 sb)]).
    { cbn [backs fields_CommonCertificateExtension f_ty jback]. destruct sb; reflexivity. }
    cbn [unmarshal].
    rewrite (peek_cross _ _ _ _ true o "CommonExtensionName" "commonExtensionName" (to_utf8 sa) R E eq_refl); [|rewrite B; reflexivity].
    cbn [bind back_choice]. rewrite B. cbv iota.
    destruct (String.eqb (to_utf8 sa) "") eqn:Z; cbn [negb].
    + rewrite (cross_unmarshal (TRef "CustomCertificateExtension") fields_CustomCertificateExtension _ _ _ _ true o eq_refl R E eq_refl). rewrite B. reflexivity.
    + rewrite (plain_unmarshal (TRef "CommonCertificateExtension") _ _ _ _ true o eq_refl R E). rewrite B. reflexivity.
Qed.

Lemma hook_asserter : hook_ok HAsserter (TRef "AsserterChoice") fields_AsserterChoice.
Proof.
  intros vs o W S G P E. unfold fields_AsserterChoice in W, S.
  fields3 W S vs org ind ref. split_foralls.
  cbn [encs backs fields_AsserterChoice f_ty marshal] in E. cbn [encs backs fields_AsserterChoice f_ty back_choice].
  change (zeros_of fields_AsserterChoice) with [VPtr None; VPtr None; VPtr None].
  destruct (parts (TRef "OrganizationalEntity") fields_OrganizationalEntity org) as [->|(ds & -> & R & En & Bk)]; try assumption; try reflexivity.
  - destruct (parts (TRef "OrganizationalContact") fields_OrganizationalContact ind) as [->|(ds & -> & R & En & Bk)]; try assumption; try reflexivity.
    + match goal with W : wt _ ref |- _ => destruct (wt_ptr _ _ W) as [->|(x & -> & Wx)] end.
      * injection E as <-. reflexivity.
      * destruct (wt_strk (TRef "BOMReference") x eq_refl Wx) as (s & ->). injection E as <-. reflexivity.
    + cbn [nonnil]. cbn [nonnil] in E. apply bind_ok in E as (o1 & E & Eo). injection Eo as <-. apply En in E. rewrite Bk.
      pose proof (plain_self (TRef "OrganizationalContact") fields_OrganizationalContact _ _ _ true o1 eq_refl R E) as U.
      destruct (enc_struct_obj _ _ _ _ _ E) as (ms & ->).
      change (shape_of (erase (OObj [("individual", OObj ms)]))) with (SObj [("individual", mkMember false (jdec (erase (OObj ms))))]).
      cbn [unmarshal]. change (dec_raw [("individual", mkMember false (jdec (erase (OObj ms))))] [None; None; None]) with [None; Some (jdec (erase (OObj ms))); None].
      cbv iota. rewrite jdec_eq.
      change (node ?s (TRef "OrganizationalContact") ?c) with (plain s (TRef "OrganizationalContact") c). rewrite U. reflexivity.
  - cbn [nonnil]. cbn [nonnil] in E. apply bind_ok in E as (o1 & E & Eo). injection Eo as <-. apply En in E. rewrite Bk.
    pose proof (plain_self (TRef "OrganizationalEntity") fields_OrganizationalEntity _ _ _ true o1 eq_refl R E) as U.
    destruct (enc_struct_obj _ _ _ _ _ E) as (ms & ->).
    change (shape_of (erase (OObj [("organization", OObj ms)]))) with (SObj [("organization", mkMember false (jdec (erase (OObj ms))))]).
    cbn [unmarshal]. change (dec_raw [("organization", mkMember false (jdec (erase (OObj ms))))] [None; None; None]) with [Some (jdec (erase (OObj ms))); None; None].
    cbv iota. rewrite jdec_eq.
    change (node ?s (TRef "OrganizationalEntity") ?c) with (plain s (TRef "OrganizationalEntity") c). rewrite U. reflexivity.
Qed.

Lemma hook_ikev2 t f fs : kind_of t = KStruct (f :: fs) -> f_ty f = TRef "BOMReference" -> hook_ok HIKEv2 t (f :: fs).
Proof.
  intros K F vs o W S G P E. destruct vs as [|ref rest]; [contradiction|].
  assert (R : rows (f :: fs) (ref :: rest) (encs (ref :: rest) (f :: fs)) (backs (ref :: rest) (f :: fs))).
  { apply rows_of; auto. eapply struct_ok, K. }
  destruct W as (W1 & W2). rewrite F in W1. destruct (wt_strk (TRef "BOMReference") ref eq_refl W1) as (s & ->).
  cbn [encs backs marshal] in E. cbn [encs backs back_choice]. cbn [encs backs] in R.
  assert (Zs : zeros_of (f :: fs) = VStr "" :: zeros_of fs) by (unfold zeros_of; cbn [map]; rewrite F; reflexivity).
  destruct (nonempty (VStr s)) eqn:N.
  - cbn [jenc] in E. injection E as <-. cbn [erase shape_of unmarshal]. rewrite Zs. reflexivity.
  - pose proof (plain_self t _ _ _ _ true o K R E) as U. destruct (enc_struct_obj _ _ _ _ _ E) as (ms & ->).
    rewrite shape_obj in *. cbn [unmarshal]. rewrite Zs. rewrite <- Zs, <- (zero_struct t _ K), U. reflexivity.
Qed.
