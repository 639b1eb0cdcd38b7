(** Where null is written: for C45. *)
From Verif Require Import Base Types Univ TypeTable Wt ReifyBase Reify ReifyFacts Consts LinkModel Version ConvertSpec Numbers Utf8 GobModel GobProofs JsonModel JsonSpec JsonBack JsonProofs JsonRound JsonDecode JsonBom JsonTyped SchemaSpec ShapeSpec.
Local Open Scope string_scope.

Definition hollows : list val -> list field -> bool :=
  fix fields (vs : list val) (fs : list field) {struct vs} : bool :=
    match vs, fs with x :: vs', f :: fs' => ((always_written f && is_nil x) || hollow (f_ty f) x || fields vs' fs')%bool | _, _ => false end.
Lemma hollow_struct t vs : hollow t (VStruct vs) = (match t with TRef n => (String.eqb n "EvidenceIdentityChoice" && negb (existsb is_set vs))%bool | _ => false end || hollows vs (fields_of t))%bool.
Proof. reflexivity. Qed.
Definition solid (v : val) : Prop := forall esc t o, is_nil v = false -> hollow t v = false -> jenc esc t v = Ok o -> nulls (erase o) = false.

Lemma members_solid esc : forall vs fs ms, Forall solid vs -> hollows vs fs = false -> enc_members esc fs vs (encs vs fs) = Ok ms -> existsb (fun m => nulls (snd m)) (map (fun m => (fst m, erase (snd m))) ms) = false.
Proof.
  induction vs as [|v vs IH]; intros [|f fs] ms G H E; try (injection E as <-; reflexivity). cbn [hollows] in H. apply Bool.orb_false_iff in H as (H & Hs). apply Bool.orb_false_iff in H as (Hn & Hv). inversion G as [|? ? Gv Gs]; subst.
  cbn [encs enc_members] in E. destruct (json_info f) as [[n om]|] eqn:J; [|exact (IH fs ms Gs Hs E)]. destruct (om && empty_value v)%bool eqn:O; [exact (IH fs ms Gs Hs E)|].
  apply bind_ok in E as (o & Eo & E). apply bind_ok in E as (ms' & Es & E). injection E as <-. cbn [map existsb fst snd]. rewrite (IH fs ms' Gs Hs Es), Bool.orb_false_r. apply (Gv esc (f_ty f) o); [|exact Hv|exact Eo].
  unfold always_written in Hn. rewrite J in Hn. destruct om; [|exact Hn]. destruct v as [| | | |[|]|[|]|]; try reflexivity; discriminate O.
Qed.
Lemma struct_solid esc fs vs o : Forall solid vs -> hollows vs fs = false -> enc_struct esc fs vs (encs vs fs) = Ok o -> nulls (erase o) = false.
Proof.
  intros G H E. unfold enc_struct in E. apply bind_ok in E as (ms & E & X). injection X as <-. exact (members_solid esc vs fs ms G H E).
Qed.
Lemma scanned_same r o : scanned r = Ok o -> r = Ok o.
Proof. unfold scanned. intros E. apply bind_ok in E as (o' & E & X). destruct (too_deep (erase o')); [discriminate|]. injection X as <-. exact E. Qed.
Lemma nonnil_nil v : nonnil v = true -> is_nil v = false.
Proof. destruct v as [| | | |[|]|[|]|]; try discriminate; reflexivity. Qed.
Lemma nonempty_nil v : nonempty v = true -> is_nil v = false.
Proof. destruct v as [| | | |[|]|[|]|]; try discriminate; reflexivity. Qed.
Lemma hollows_2 a b f g : hollows [a; b] [f; g] = false -> hollow (f_ty f) a = false /\ hollow (f_ty g) b = false.
Proof. cbn [hollows]. intros H. apply Bool.orb_false_iff in H as (H & H'). apply Bool.orb_false_iff in H as (_ & H). apply Bool.orb_false_iff in H' as (H' & _). apply Bool.orb_false_iff in H' as (_ & H'). split; assumption. Qed.
Lemma choice_2 a b f g o (c1 c2 : bool) rest : solid a -> solid b -> hollows [a; b] [f; g] = false -> (c1 = true -> is_nil a = false) -> (c2 = true -> is_nil b = false) ->
  (if c1 then jenc true (f_ty f) a else if c2 then jenc true (f_ty g) b else Ok rest) = Ok o -> (c1 = false -> c2 = false -> nulls (erase rest) = false) -> nulls (erase o) = false.
Proof.
  intros Ga Gb H N1 N2 E R. apply hollows_2 in H as (Ha & Hb). destruct c1; [exact (Ga true _ o (N1 eq_refl) Ha E)|]. destruct c2; [exact (Gb true _ o (N2 eq_refl) Hb E)|]. injection E as <-. exact (R eq_refl eq_refl).
Qed.
Lemma ike_solid f fs vs o : Forall solid vs -> hollows vs (f :: fs) = false -> marshal HIKEv2 (f :: fs) vs (encs vs (f :: fs)) = Ok o -> nulls (erase o) = false.
Proof.
  intros G H E. destruct vs as [|v vs]; [discriminate E|]. cbn [marshal encs] in E. destruct (nonempty v) eqn:N; [|exact (struct_solid true (f :: fs) (v :: vs) o G H E)].
  cbn [hollows] in H. apply Bool.orb_false_iff in H as (H & _). apply Bool.orb_false_iff in H as (_ & H). inversion G as [|? ? Gv _]; subst. exact (Gv true (f_ty f) o (nonempty_nil v N) H E).
Qed.
Lemma hook_solid t h fs vs o : hooked_type t h fs -> Forall solid vs -> hollow t (VStruct vs) = false -> marshal h fs vs (encs vs fs) = Ok o -> nulls (erase o) = false.
Proof.
  intros T G H E. rewrite hollow_struct in H. unfold fields_of in H. rewrite (hooked_kind t h fs T) in H. apply Bool.orb_false_iff in H as (N & H).
  assert (G2 : forall a b l, vs = a :: b :: l -> solid a /\ solid b) by (intros a b l ->; inversion G as [|? ? Ga G']; inversion G' as [|? ? Gb _]; subst; split; assumption).
  destruct T.
  - destruct vs as [|a [|b [|]]]; try discriminate E. destruct (G2 _ _ _ eq_refl) as (Ga & Gb). refine (choice_2 a b _ _ o _ (nonempty b) (OObj []) Ga Gb H _ (nonempty_nil b) E (fun _ _ => eq_refl)). destruct a as [| | | |[|]|[|]|]; try discriminate; reflexivity.
  - destruct vs as [|a [|b [|]]]; try discriminate E. destruct (G2 _ _ _ eq_refl) as (Ga & Gb). cbn [marshal encs fields_MLDatasetChoice] in E. pose proof (hollows_2 _ _ _ _ H) as (Ha & Hb). destruct (nonempty a) eqn:Na.
    + refine (struct_solid true fields_mlDatasetChoiceRefJSON [a] o _ _ E); [constructor; [exact Ga|constructor]|]. cbn [hollows fields_mlDatasetChoiceRefJSON]. rewrite (nonempty_nil a Na), Bool.andb_false_r. cbn [f_ty orb]. cbn [f_ty] in Ha. rewrite Ha. reflexivity.
    + destruct (nonnil b) eqn:Nb; [exact (Gb true _ o (nonnil_nil b Nb) Hb E)|]. injection E as <-. reflexivity.
  - destruct vs as [|a [|b [|c [|]]]]; try discriminate E. cbn [marshal encs fields_ToolsChoice] in E. destruct (nonnil a && (nonnil b || nonnil c))%bool; [discriminate|].
    inversion G as [|? ? Ga G']; subst. cbn [hollows fields_ToolsChoice] in H. apply Bool.orb_false_iff in H as (H0 & H). apply Bool.orb_false_iff in H0 as (_ & Ha). destruct (nonnil a) eqn:Na; [exact (Ga true _ o (nonnil_nil a Na) Ha E)|]. destruct (nonnil b || nonnil c)%bool; [|discriminate].
    refine (struct_solid true fields_toolsChoiceJSON [b; c] o G' _ E). exact H.
  - destruct vs as [|a [|b [|]]]; try discriminate E. destruct (G2 _ _ _ eq_refl) as (Ga & Gb). cbn [marshal] in E. destruct (nonnil a && nonnil b)%bool; [discriminate|]. refine (choice_2 a b _ _ o (nonnil a) (nonnil b) ONull Ga Gb H (nonnil_nil a) (nonnil_nil b) E _).
    intros Na Nb. exfalso. change (negb (nonnil a || (nonnil b || false)) = false) in N. rewrite Na, Nb in N. discriminate N.
  - destruct vs as [|v0 [|v1 [|v2 vs]]]; try discriminate E. cbn [marshal] in E. destruct (nonempty v1 && nonempty v2)%bool; [discriminate|]. destruct (negb (nonempty v1 || nonempty v2)); [discriminate|]. exact (struct_solid true _ _ o G H E).
  - destruct vs as [|a [|b [|]]]; try discriminate E. destruct (G2 _ _ _ eq_refl) as (Ga & Gb). cbn [marshal] in E. destruct (nonnil a && nonnil b)%bool; [discriminate|]. exact (choice_2 a b _ _ o (nonnil a) (nonnil b) (OObj []) Ga Gb H (nonnil_nil a) (nonnil_nil b) E (fun _ _ => eq_refl)).
  - destruct vs as [|a [|b [|]]]; try discriminate E. destruct (G2 _ _ _ eq_refl) as (Ga & Gb). cbn [marshal] in E. destruct (nonnil a && nonnil b)%bool; [discriminate|]. exact (choice_2 a b _ _ o (nonnil a) (nonnil b) (OObj []) Ga Gb H (nonnil_nil a) (nonnil_nil b) E (fun _ _ => eq_refl)).
  - destruct vs as [|a [|b [|c [|]]]]; try discriminate E. cbn [marshal encs fields_AsserterChoice] in E. inversion G as [|? ? Ga G']; subst. inversion G' as [|? ? Gb G'']; subst. inversion G'' as [|? ? Gc _]; subst.
    cbn [hollows fields_AsserterChoice] in H. apply Bool.orb_false_iff in H as (H0 & H). apply Bool.orb_false_iff in H0 as (_ & Ha). apply Bool.orb_false_iff in H as (H0 & H). apply Bool.orb_false_iff in H0 as (_ & Hb). apply Bool.orb_false_iff in H as (H0 & _). apply Bool.orb_false_iff in H0 as (_ & Hc).
    destruct (nonnil a) eqn:Na; [|destruct (nonnil b) eqn:Nb; [|destruct (nonnil c) eqn:Nc]].
    + apply bind_ok in E as (x & E & X). injection X as <-. cbn [erase map nulls existsb fst snd]. rewrite (Ga true _ x (nonnil_nil a Na) Ha E). reflexivity.
    + apply bind_ok in E as (x & E & X). injection X as <-. cbn [erase map nulls existsb fst snd]. rewrite (Gb true _ x (nonnil_nil b Nb) Hb E). reflexivity.
    + apply bind_ok in E as (x & E & X). injection X as <-. cbn [erase map nulls existsb fst snd]. rewrite (Gc true _ x (nonnil_nil c Nc) Hc E). reflexivity.
    + injection E as <-. reflexivity.
  - exact (ike_solid _ _ vs o G H E).
  - exact (ike_solid _ _ vs o G H E).
  - exact (ike_solid _ _ vs o G H E).
  - exact (ike_solid _ _ vs o G H E).
  - exact (ike_solid _ _ vs o G H E).
  - destruct vs as [|a [|b [|]]]; try discriminate E. destruct (G2 _ _ _ eq_refl) as (Ga & Gb). exact (choice_2 a b _ _ o (nonnil a) (nonnil b) (OObj []) Ga Gb H (nonnil_nil a) (nonnil_nil b) E (fun _ _ => eq_refl)).
Qed.

Lemma all_solid v : solid v.
Proof.
  induction v as [x|z|b|f| |v IH| |l IH|vs IH] using val_induction; intros esc t o N H E.
  - injection E as <-. reflexivity.
  - cbn [jenc] in E. destruct (marshal_hook t); injection E as <-; reflexivity.
  - injection E as <-. reflexivity.
  - destruct f; try discriminate E. injection E as <-. reflexivity.
  - discriminate N.
  - cbn [hollow] in H. apply Bool.orb_false_iff in H as (Nv & H). exact (IH esc (elem_ty t) o Nv H E).
  - discriminate N.
  - rewrite jenc_slice in E. apply bind_ok in E as (os & E & X). injection X as <-. cbn [erase nulls]. cbn [hollow] in H. clear N.
    revert os E H. induction IH as [|x l Gx _ IH]; intros os E H; cbn [enc_elements] in E; [injection E as <-; reflexivity|].
    apply bind_ok in E as (o & Eo & E). apply bind_ok in E as (os' & Es & E). injection E as <-. cbn [existsb] in H. apply Bool.orb_false_iff in H as (H & Hs). apply Bool.orb_false_iff in H as (Nx & H). cbn [map existsb]. rewrite (Gx esc _ o Nx H Eo). exact (IH os' Es Hs).
  - rewrite jenc_struct in E. destruct (hook_cases t) as [K|[->|(h & fs & K)]].
    + rewrite K in E. rewrite hollow_struct in H. apply Bool.orb_false_iff in H as (_ & H). exact (struct_solid esc _ vs o IH H E).
    + change (scanned (marshal HSpecVersion [] vs (encs vs [])) = Ok o) in E. destruct vs; discriminate E.
    + apply (hook_solid t h fs vs o K IH H). unfold fields_of in E. rewrite (hooked_kind t h fs K) in E. destruct K; exact (scanned_same _ o E).
Qed.
Theorem no_nulls b esc o : hollow (TRef "BOM") (reify_BOM b) = false -> json_encode esc b = Ok o -> nulls (erase o) = false.
Proof.
  intros H E. apply encode_writes in E as (E & _). rewrite bom_to_json_eq in E. exact (all_solid (reify_BOM b) esc (TRef "BOM") o eq_refl H E).
Qed.
