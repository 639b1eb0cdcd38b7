(** The codec on whole BOMs. *)
From Verif Require Import Base Types Univ TypeTable Wt Reify ReifyBase ReifyFacts Consts LinkModel Version ConvertModel ConvertSpec VersionProofs Numbers NumbersProofs Utf8 Utf8Proofs GobModel GobProofs JsonModel JsonBack JsonProofs JsonHooks JsonRound JsonSpec JsonLossless JsonErrors JsonClean JsonOut JsonDecode JsonDecodeExact.
From Coq Require Import Lia.
Local Open Scope string_scope.

Lemma bom_ok : ok_ty (TRef "BOM") = true. Proof. reflexivity. Qed.
Lemma bom_wk : wk (TRef "BOM") = true. Proof. reflexivity. Qed.
Lemma bom_zero : reify_BOM zero_BOM = zero_of (TRef "BOM"). Proof. vm_compute. reflexivity. Qed.

(** Reading what was written. *)
Lemma of_json_eq j v : too_deep j = false -> jdec j (TRef "BOM") (zero_of (TRef "BOM")) = DVal v None -> bom_of_json j zero_BOM = Ok (reflect_BOM v).
Proof. intros D E. unfold bom_of_json. rewrite D, bom_zero, E. reflexivity. Qed.
Lemma good_at v t esc o : ok_ty t = true -> wt t v -> sane t v -> jenc esc t v = Ok o -> jdec (erase o) t (zero_of t) = DVal (jback t v) None.
Proof. intros K W S E. exact (proj1 (all_good v) t K W S esc o E). Qed.
Lemma dec_fit j t v : doc_utf8 j -> wk t = true -> jdec j t (zero_of t) = DVal v None -> fit t v.
Proof. intros U W E. eapply (jdec_keeps j); [exact U|exact W| |exact E]. apply fit_zero, wk_kind, W. Qed.
Lemma bom_to_json_eq esc b : bom_to_json esc b = jenc esc (TRef "BOM") (reify_BOM b).
Proof. unfold bom_to_json. reflexivity. Qed.
Lemma bom_dec esc b o : sane (TRef "BOM") (reify_BOM b) -> bom_to_json esc b = Ok o ->
  jdec (erase o) (TRef "BOM") (zero_of (TRef "BOM")) = DVal (jback (TRef "BOM") (reify_BOM b)) None.
Proof. intros S E. rewrite bom_to_json_eq in E. exact (good_at _ _ _ _ bom_ok (typed_BOM b) S E). Qed.
Lemma bom_utf8 esc b o : bom_to_json esc b = Ok o -> doc_utf8 (erase o).
Proof. rewrite bom_to_json_eq. apply written_utf8. Qed.
Lemma bom_unique esc b o : bom_to_json esc b = Ok o -> doc_unique (erase o).
Proof. rewrite bom_to_json_eq. apply written_unique. Qed.
Lemma reify_reflect v : fit (TRef "BOM") v -> reify_BOM (reflect_BOM v) = v.
Proof. intros F. apply vni_BOM, fit_wt, F. Qed.
Lemma bom_back_v j v : doc_utf8 j -> too_deep j = false -> jdec j (TRef "BOM") (zero_of (TRef "BOM")) = DVal v None ->
  exists c, bom_of_json j zero_BOM = Ok c /\ reify_BOM c = v.
Proof.
  intros U D G. exists (reflect_BOM v). split; [exact (of_json_eq j v D G)|]. exact (reify_reflect v (dec_fit j (TRef "BOM") v U bom_wk G)).
Qed.
Lemma bom_back esc b o : sane (TRef "BOM") (reify_BOM b) -> bom_to_json esc b = Ok o -> too_deep (erase o) = false ->
  exists c, bom_of_json (erase o) zero_BOM = Ok c /\ reify_BOM c = jback (TRef "BOM") (reify_BOM b).
Proof. intros S E D. exact (bom_back_v _ _ (bom_utf8 esc b o E) D (bom_dec esc b o S E)). Qed.

Lemma reify_inj b c : reify_BOM b = reify_BOM c -> b = c.
Proof. intros E. rewrite <- (inv_BOM b), <- (inv_BOM c), E. reflexivity. Qed.

Definition bom_tail (b : BOM) : list val := tl (tl (fields_of_val (reify_BOM b))).
Lemma bom_fields b : reify_BOM b = VStruct (vname (BOM_XMLName b) :: VStr (BOM_XMLNS b) :: bom_tail b).
Proof. destruct b. reflexivity. Qed.
Lemma view_tail b : bom_tail (json_view b) = bom_tail b.
Proof. destruct b. reflexivity. Qed.
Lemma unwritten_two esc f g fs v w vs : json_info f = None -> json_info g = None ->
  enc_struct esc (f :: g :: fs) (v :: w :: vs) (encs (v :: w :: vs) (f :: g :: fs)) = enc_struct esc fs vs (encs vs fs).
Proof. intros F G. unfold enc_struct. cbn [encs enc_members]. rewrite F, G. reflexivity. Qed.
Lemma view_writes esc b : bom_to_json esc (json_view b) = bom_to_json esc b.
Proof.
  rewrite !bom_to_json_eq, (bom_fields b), (bom_fields (json_view b)), !jenc_struct, view_tail.
  change (marshal_hook (TRef "BOM")) with HNone. cbv iota. change (fields_of (TRef "BOM")) with fields_BOM.
  change fields_BOM with (hd (mkField "" TStr "" false) fields_BOM :: hd (mkField "" TStr "" false) (tl fields_BOM) :: tl (tl fields_BOM)).
  rewrite !unwritten_two by reflexivity. reflexivity.
Qed.
Lemma view_sane b : sane (TRef "BOM") (reify_BOM b) -> sane (TRef "BOM") (reify_BOM (json_view b)).
Proof. destruct b. exact (fun H => H). Qed.

Lemma encode_writes esc b o : json_encode esc b = Ok o -> bom_to_json esc b = Ok o /\ (SpecVersion1_2 <= BOM_SpecVersion b)%Z.
Proof.
  unfold json_encode. destruct (Z.ltb_spec (BOM_SpecVersion b) SpecVersion1_2); [discriminate|]. destruct (bom_to_json esc b); [|discriminate].
  intros [= <-]. split; [reflexivity|assumption].
Qed.

Lemma bom_round esc b o : sane (TRef "BOM") (reify_BOM b) -> json_encode esc b = Ok o -> too_deep (erase o) = false ->
  bom_of_json (erase o) zero_BOM = Ok (json_view b) <-> lossless (TRef "BOM") (reify_BOM (json_view b)).
Proof.
  intros S E D. apply encode_writes in E as (E & _). rewrite <- view_writes in E.
  destruct (bom_back esc (json_view b) o (view_sane b S) E D) as (c & C & Q). split.
  - intros R. rewrite C in R. injection R as ->. rewrite bom_to_json_eq in E. eapply kept_lossless; [exact bom_ok|apply typed_BOM|exact E|symmetry; exact Q].
  - intros L. rewrite C. f_equal. apply reify_inj. rewrite Q. apply lossless_same; [exact bom_ok|apply typed_BOM|exact L].
Qed.

(** ** Decoded BOMs are fit to be encoded *)
Fixpoint base (t : ty) : string := match t with TPtr t' | TSlice t' => base t' | TRef n => n | _ => "" end.
Definition free (t : ty) : bool := negb (String.eqb (base t) "SpecVersion" || String.eqb (base t) "BOM").
Lemma defs_free : forallb (fun d => String.eqb (fst d) "BOM" || match snd d with DStruct fs => forallb (fun f => free (f_ty f)) fs | DAlias t => free t end)%bool defs = true.
Proof. vm_compute. reflexivity. Qed.
Lemma free_struct t fs : free t = true -> kind_of t = KStruct fs -> forall f, In f fs -> free (f_ty f) = true.
Proof.
  intros F K. apply kind_struct_in in K as (n & -> & I). pose proof defs_free as D. rewrite forallb_forall in D. specialize (D _ I). cbn [fst snd] in D.
  unfold free in F. cbn [base] in F. destruct (String.eqb n "BOM"); [rewrite orb_true_r in F; discriminate F|]. cbn [orb] in D. rewrite forallb_forall in D. exact D.
Qed.
Lemma free_elem t t' : free t = true -> kind_of t = KPtr t' \/ kind_of t = KSlice t' -> free t' = true.
Proof.
  intros F K. destruct t; cbn [kind_of kind_base] in K; try (destruct K; discriminate).
  - destruct K as [K|K]; [injection K as <-|discriminate]. exact F.
  - destruct K as [K|K]; [discriminate|injection K as <-]. exact F.
  - destruct (assoc name defs) as [d|] eqn:A; [|destruct K; discriminate]. apply assoc_in in A. pose proof defs_free as D. rewrite forallb_forall in D.
    specialize (D _ A). cbn [fst snd] in D. unfold free in F. cbn [base] in F. clear A.
    assert (N : String.eqb name "BOM" = false) by (destruct (String.eqb name "BOM"); [rewrite orb_true_r in F; discriminate F|reflexivity]).
    rewrite N in D. cbn [orb] in D. clear F N. destruct d as [fs|t]; [destruct K; discriminate|].
    destruct t; cbn [kind_base] in K; try (destruct K; discriminate); destruct K as [K|K]; try discriminate K; injection K as <-; exact D.
Qed.

Lemma fit_sane v : forall t, free t = true -> fit t v -> sane t v.
Proof.
  induction v as [s|z|b|f| |x IH| |l IH|vs IH] using val_induction; intros t F W; try exact I.
  - destruct W as (K & W). cbn [sane]. destruct (marshal_hook t) eqn:H; try exact W. exfalso.
    destruct (hook_cases t) as [H'|[->|(h & fs & H')]]; [congruence|discriminate F|]. rewrite (hooked_kind _ _ _ H') in K. discriminate K.
  - apply W.
  - cbn [fit] in W. destruct (kind_of t) as [| | | |t'| | |] eqn:K; try contradiction. cbn [sane]. unfold elem_ty. rewrite K. apply IH; [|exact W]. eapply free_elem; [exact F|left; exact K].
  - cbn [fit] in W. destruct (kind_of t) as [| | | | |t'| |] eqn:K; try contradiction. cbn [sane]. unfold elem_ty. rewrite K.
    rewrite list_all_forall in *. rewrite Forall_forall in *. intros x I. apply IH; [exact I| |apply W, I]. eapply free_elem; [exact F|right; exact K].
  - cbn [fit] in W. destruct (kind_of t) as [| | | | | |fs|] eqn:K; try contradiction. cbn [sane]. rewrite (fields_of_kind t fs K).
    pose proof (free_struct t fs F K) as Ff. clear K F. revert fs W Ff. induction IH as [|x vs Hx _ IHv]; intros [|f fs] W Ff; try contradiction; [exact I|].
    destruct W as (W1 & W2). split; [apply Hx; [apply Ff; left; reflexivity|exact W1]|]. apply IHv; [exact W2|]. intros g Hg. apply Ff. right. exact Hg.
Qed.
Lemma bom_fit_sane b : fit (TRef "BOM") (reify_BOM b) -> (SpecVersion1_2 <= BOM_SpecVersion b)%Z -> sane (TRef "BOM") (reify_BOM b).
Proof.
  intros F V. destruct b as [n ns sc fo ver sn v2 me co se ex de cm pr vu an fm dc df ci sg]. change (SpecVersion1_2 <= ver)%Z in V.
  assert (G : forall fs vs, zip_all (fun f x => fit (f_ty f) x) vs fs -> Forall (fun f => free (f_ty f) = true) fs -> zip_all (fun f x => sane (f_ty f) x) vs fs).
  { clear. induction fs as [|f fs IH]; intros [|v vs] Z A; try contradiction; [exact I|]. apply Forall_cons_iff in A as (A1 & A2). destruct Z as (Z1 & Z2).
    split; [apply fit_sane; assumption|apply IH; assumption]. }
  destruct F as (F1 & F2 & F3 & F4 & F5 & F). split; [apply fit_sane; trivial; reflexivity|]. split; [exact I|]. split; [exact I|]. split; [exact I|]. split.
  - destruct F5 as (_ & [Z|F5]); [exfalso; change (ver = 0%Z) in Z; subst ver; apply V; reflexivity|]. change (parse_spec_version (SpecVersion_String ver) = Some ver).
    apply spec_version_roundtrip, F5.
  - apply (G (tl (tl (tl (tl (tl fields_BOM)))))); [exact F|]. repeat constructor.
Qed.

Lemma decoded j c : doc_utf8 j -> doc_unique j -> bom_of_json j zero_BOM = Ok c ->
  fit (TRef "BOM") (reify_BOM c) /\ lossless (TRef "BOM") (reify_BOM c).
Proof.
  intros U Q E. unfold bom_of_json in E. destruct (too_deep j); [discriminate|]. apply bind_ok in E as (v & Ev & E). injection E as <-.
  apply finish_ok in Ev. rewrite bom_zero in Ev. destruct (jdec_exact j U Q (TRef "BOM") v bom_ok bom_wk Ev) as (F & L & _).
  rewrite (vni_BOM v (fit_wt _ _ F)). auto.
Qed.
Lemma decoded_view j c : doc_utf8 j -> doc_unique j -> bom_of_json j zero_BOM = Ok c -> json_view c = c.
Proof.
  intros U Q E. apply (decoded j c U Q) in E as (_ & L). destruct c as [n ns sc fo ver sn v2 me co se ex de cm pr vu an fm dc df ci sg].
  destruct L as (L1 & L2 & _). destruct n as [a b]. change (VStruct [VStr a; VStr b] = VStruct [VStr ""; VStr ""]) in L1. change (VStr ns = VStr "") in L2.
  injection L1 as -> ->. injection L2 as ->. reflexivity.
Qed.

(** Decoding what was made from a decoded BOM gives that BOM again. *)
Lemma bom_again j c esc o : doc_utf8 j -> doc_unique j -> bom_of_json j zero_BOM = Ok c -> json_encode esc c = Ok o -> too_deep (erase o) = false ->
  bom_of_json (erase o) zero_BOM = Ok c.
Proof.
  intros U Q E W D. pose proof (decoded_view j c U Q E) as V. destruct (decoded j c U Q E) as (F & L). pose proof (encode_writes _ _ _ W) as (_ & Ge).
  rewrite <- V. apply (bom_round esc c o); trivial; [|rewrite V; exact L]. apply bom_fit_sane; assumption.
Qed.

(** ** Versions *)
Lemma encode_old esc b : (BOM_SpecVersion b < SpecVersion1_2)%Z -> json_encode esc b = Err EUnsupportedVersion.
Proof. intros L. unfold json_encode. destruct (Z.ltb_spec (BOM_SpecVersion b) SpecVersion1_2); [reflexivity|lia]. Qed.
Lemma encode_fails esc b : (exists o, bom_to_json esc b = Ok o) ->
  (exists e, json_encode esc b = Err e) <-> (BOM_SpecVersion b < SpecVersion1_2)%Z.
Proof.
  intros (o & E). split.
  - intros (e & F). unfold json_encode in F. destruct (Z.ltb_spec (BOM_SpecVersion b) SpecVersion1_2); [assumption|]. rewrite E in F. discriminate F.
  - intros L. eexists. apply encode_old, L.
Qed.

(** ** What a choice can be *)
Definition intact (t : ty) (v : val) : Prop := lossless t v \/ v = zero_of t.

Lemma zero_parts t p : wk t = true -> In p (all_parts t (zero_of t)) -> snd p = zero_of (fst p).
Proof.
  intros W I. rewrite zero_by_kind in I. destruct (kind_of t) as [| | | | | |fs|] eqn:K; try contradiction.
  - cbn [all_parts] in I. rewrite (fields_of_kind t fs K) in I. clear K W. induction fs as [|f fs IH]; [contradiction|]. destruct I as [<-|I]; [reflexivity|]. apply IH, I.
  - exfalso. eapply wk_kind; eassumption.
Qed.

Lemma fields_intact fs : forall vs, fields_lossless fs vs (losses vs fs) -> forall p, In p (combine (map f_ty fs) vs) -> intact (fst p) (snd p).
Proof.
  induction fs as [|f fs IH]; intros [|v vs] L p I; try contradiction. cbn [losses fields_lossless map combine] in *. destruct L as (L & Ls).
  destruct I as [<-|I]; [|exact (IH vs Ls p I)]. cbn [fst snd]. destruct (json_info f) as [[n om]|]; [|right; exact L].
  destruct (om && empty_value v)%bool; [right|left]; exact L.
Qed.

Lemma nil_intact t v : nil_ptr v -> intact (TPtr t) v.
Proof. intros N. right. destruct v as [| | | |[x|]| |]; try contradiction N; try discriminate N. reflexivity. Qed.

Lemma choice_intact t h fs vs : hooked_type t h fs -> zip_all (fun f x => fit (f_ty f) x) vs fs -> choice_lossless h fs vs (losses vs fs) ->
  forall p, In p (combine (map f_ty fs) vs) -> intact (fst p) (snd p).
Proof.
  intros H F L p I.
  assert (IK : h = HIKEv2 -> intact (fst p) (snd p)).
  { intros ->. destruct fs as [|f fs]; [contradiction|]. destruct vs as [|v vs]; [contradiction|]. cbn [losses choice_lossless tl] in L.
    destruct L as [(_ & L & Z)|(_ & L)]; [|eapply fields_intact; [exact L|exact I]]. cbn [map combine] in I. destruct I as [<-|I]; [left; exact L|].
    subst vs. right. clear -I. induction fs as [|g fs IH]; [contradiction|]. destruct I as [<-|I]; [reflexivity|apply IH, I]. }
  destruct H; try (apply IK; reflexivity); clear IK.
  all: try (eapply fields_intact; [exact L|exact I]; fail).
  all: repeat (destruct vs as [|? vs]; try contradiction F; try (destruct F as (? & F); try contradiction F)).
  all: unfold fields_EnvironmentVariableChoice, fields_MLDatasetChoice, fields_ToolsChoice, fields_EvidenceIdentityChoice, fields_CertificateState,
    fields_CertificateExtension, fields_AsserterChoice, fields_PatentChoice in *.
  all: cbn [losses choice_lossless map combine f_ty] in *.
  all: repeat match goal with I : In _ (_ :: _) |- _ => destruct I as [<-|I] | I : In _ [] |- _ => destruct I end; cbn [fst snd].
  all: repeat match goal with L : _ \/ _ |- _ => destruct L as [L|L] | L : _ /\ _ |- _ => destruct L end.
  all: try (left; assumption).
  all: try (apply nil_intact; assumption).
  all: right; assumption.
Qed.

Lemma intact_part t v t1 v1 : ok_ty t = true -> fit t v -> wk t = true -> intact t v -> In (t1, v1) (all_parts t v) ->
  ok_ty t1 = true /\ fit t1 v1 /\ wk t1 = true /\ intact t1 v1.
Proof.
  intros K F W N I. 
  assert (B : ok_ty t1 = true /\ fit t1 v1 /\ wk t1 = true).
  { destruct v as [| | | |[x|]|[l|]|vs]; try contradiction I; cbn [all_parts] in I; cbn [fit] in F.
    - destruct (kind_of t) as [| | | |t'| | |] eqn:Kt; try contradiction. destruct (kind_ptr t t' K Kt) as (-> & K').
      destruct I as [[= <- <-]|[]]. auto.
    - destruct (kind_of t) as [| | | | |t'| |] eqn:Kt; try contradiction. apply in_map_iff in I as (x & [= <- <-] & I). unfold elem_ty. rewrite Kt.
      rewrite list_all_forall, Forall_forall in F. split; [apply elem_ok_ok, (slice_ok t t' K Kt)|]. split; [apply F, I|apply (wk_slice t t' W Kt)].
    - destruct (kind_of t) as [| | | | | |fs|] eqn:Kt; try contradiction. rewrite (fields_of_kind t fs Kt) in I.
      pose proof (zip_combine fit fs vs F _ I) as F1. cbn [fst snd] in F1. apply in_combine_l in I. apply in_map_iff in I as (f & <- & I).
      pose proof (struct_ok t fs Kt) as So. rewrite forallb_forall in So. pose proof (wk_struct t fs Kt) as Wk. rewrite Forall_forall in Wk. auto. }
  destruct B as (B1 & B2 & B3). repeat split; trivial. destruct N as [L|Z]; [|right; subst v; exact (zero_parts t (t1, v1) W I)].
  destruct v as [| | | |[x|]|[l|]|vs]; try contradiction I; cbn [all_parts] in I.
  - destruct I as [[= <- <-]|[]]. left. apply L.
  - apply in_map_iff in I as (x & [= <- <-] & I). left. cbn [lossless] in L. rewrite list_all_forall, Forall_forall in L. apply L, I.
  - cbn [fit] in F. destruct (kind_of t) as [| | | | | |fs|] eqn:Kt; try contradiction. rewrite lossless_struct in L. rewrite (fields_of_kind t fs Kt) in *.
    destruct (hook_cases t) as [H|[->|(h & fs' & H)]]; [|discriminate Kt|].
    + rewrite H in L. exact (fields_intact fs vs L _ I).
    + rewrite (hooked_kind _ _ _ H) in Kt. injection Kt as <-. rewrite (hooked_marshal _ _ _ H) in L. exact (choice_intact t h fs' vs H F L _ I).
Qed.
Lemma intact_inside t v t' v' : ok_ty t = true -> fit t v -> wk t = true -> intact t v -> inside t v t' v' -> fit t' v' /\ intact t' v'.
Proof.
  intros K F W N I. revert K F W N. induction I as [|t v t1 v1 t2 v2 P _ IH]; intros K F W N; [auto|].
  destruct (intact_part t v t1 v1 K F W N P) as (A & B & C & D). auto.
Qed.
Lemma decoded_inside j c t v : doc_utf8 j -> doc_unique j -> bom_of_json j zero_BOM = Ok c -> inside (TRef "BOM") (reify_BOM c) t v -> intact t v.
Proof.
  intros U Q E I. destruct (decoded j c U Q E) as (F & L). apply (intact_inside _ _ _ _ bom_ok F bom_wk (or_introl L) I).
Qed.

(** ** Typed views *)
Lemma points_some {A} (f : A -> val) (p : ptr A) : p <> None -> points (vptr f p).
Proof. destruct p as [x|]; [intros _; exists (f x); reflexivity|congruence]. Qed.
Lemma nil_none {A} (f : A -> val) (p : ptr A) : nil_ptr (vptr f p) -> p = None.
Proof. destruct p as [x|]; [intros N; discriminate N|reflexivity]. Qed.
Lemma nothing_offends esc b o t v : json_encode esc b = Ok o -> written (TRef "BOM") (reify_BOM b) t v -> ~ offence t v.
Proof.
  intros E. apply encode_writes in E as (E & _). rewrite bom_to_json_eq in E. apply (all_cleans (reify_BOM b) (TRef "BOM") esc bom_ok (typed_BOM b)).
  exists o. exact E.
Qed.
Lemma intact_fields t h fs vs : hooked_type t h fs -> intact t (VStruct vs) -> choice_lossless h fs vs (losses vs fs) \/ vs = zeros_of fs.
Proof.
  intros H [L|Z].
  - left. rewrite lossless_struct, (hooked_marshal _ _ _ H), (hooked_fields _ _ _ H) in L. exact L.
  - right. rewrite (zero_struct t fs (hooked_kind _ _ _ H)) in Z. injection Z as ->. reflexivity.
Qed.

(** Exactly the failures of encoding. *)
Lemma fails_iff esc b : (nesting (reify_BOM b) <= max_depth)%N ->
  (exists o, json_encode esc b = Ok o) <->
  ((SpecVersion1_2 <= BOM_SpecVersion b)%Z /\ forall t v, written (TRef "BOM") (reify_BOM b) t v -> ~ offence t v).
Proof.
  intros N. rewrite <- (encodes_iff (TRef "BOM") (reify_BOM b) esc bom_ok (typed_BOM b) N), <- bom_to_json_eq. unfold json_encode. split.
  - intros (o & E). destruct (Z.ltb_spec (BOM_SpecVersion b) SpecVersion1_2); [discriminate|]. split; [assumption|]. destruct (bom_to_json esc b) as [o'|]; [eauto|discriminate].
  - intros (V & o & E). exists o. destruct (Z.ltb_spec (BOM_SpecVersion b) SpecVersion1_2); [lia|]. rewrite E. reflexivity.
Qed.

(** ** The specVersion member *)
Definition version_field : field := nth 4 fields_BOM (mkField "" TStr "" false).
Lemma member_written esc n o fs : forall vs ms i f v, enc_members esc fs vs (encs vs fs) = Ok ms -> nth_error fs i = Some f -> nth_error vs i = Some v ->
  json_info f = Some (n, false) -> jenc esc (f_ty f) v = Ok o -> In (n, o) ms.
Proof.
  induction fs as [|g fs IH]; intros [|x vs] ms i f v E Nf Nv J Ev; try (destruct i; discriminate).
  change (encs (x :: vs) (g :: fs)) with ((fun esc => jenc esc (f_ty g) x) :: encs vs fs) in E. cbn [enc_members] in E. destruct i as [|i].
  - injection Nf as ->. injection Nv as ->. rewrite J, Ev in E. cbn [andb bind] in E. apply bind_ok in E as (ms' & _ & E). injection E as <-. left. reflexivity.
  - assert (K : forall ms', enc_members esc fs vs (encs vs fs) = Ok ms' -> In (n, o) ms') by (intros ms' E'; exact (IH vs ms' i f v E' Nf Nv J Ev)).
    destruct (json_info g) as [[m om]|]; [|exact (K _ E)]. destruct (om && empty_value x)%bool; [exact (K _ E)|].
    apply bind_ok in E as (o1 & _ & E). apply bind_ok in E as (ms' & E1 & E). injection E as <-. right. exact (K _ E1).
Qed.
Lemma bom_struct b : exists vs, reify_BOM b = VStruct vs /\ nth_error vs 4 = Some (VInt (BOM_SpecVersion b)).
Proof. destruct b. eexists. split; reflexivity. Qed.
Lemma version_enc esc z : jenc esc (TRef "SpecVersion") (VInt z) = Ok (OStr true (SpecVersion_String z)).
Proof. reflexivity. Qed.
Lemma written_version esc b o : bom_to_json esc b = Ok o -> exists ms, o = OObj ms /\ In ("specVersion", OStr true (SpecVersion_String (BOM_SpecVersion b))) ms.
Proof.
  rewrite bom_to_json_eq. destruct (bom_struct b) as (vs & -> & N4). intros E.
  rewrite jenc_struct in E. assert (Mh : marshal_hook (TRef "BOM") = HNone) by reflexivity. rewrite Mh in E. cbv iota in E.
  assert (Fb : nth_error (fields_of (TRef "BOM")) 4 = Some version_field) by reflexivity.
  assert (J4 : json_info version_field = Some ("specVersion", false)) by reflexivity.
  assert (T4 : f_ty version_field = TRef "SpecVersion") by reflexivity.
  generalize dependent (fields_of (TRef "BOM")). intros fs E Fb. unfold enc_struct in E. apply bind_ok in E as (ms & E & Eo). injection Eo as <-. exists ms.
  split; [reflexivity|]. apply (member_written esc _ _ fs vs ms 4 version_field _ E Fb N4 J4). rewrite T4. apply version_enc.
Qed.

Lemma unique_member (ms : list (string * json)) k k' x y : NoDup (map (fun m => fold_name (fst m)) ms) -> In (k, x) ms -> In (k', y) ms -> fold_name k = fold_name k' -> x = y.
Proof.
  induction ms as [|[k0 z] ms IH]; intros N I J Q; [contradiction|]. cbn [map fst] in N. inversion N as [|? ? NI N']; subst.
  destruct I as [[= -> ->]|I], J as [[= -> ->]|J]; [reflexivity| | |apply IH; assumption].
  - exfalso. apply NI. rewrite Q. apply in_map_iff. exists (k', y). auto.
  - exfalso. apply NI. rewrite <- Q. apply in_map_iff. exists (k, x). auto.
Qed.
Lemma read_version ms x c : doc_utf8 (JObj ms) -> doc_unique (JObj ms) -> bom_of_json (JObj ms) zero_BOM = Ok c -> In ("specVersion", JStr x) ms ->
  parse_spec_version x = Some (BOM_SpecVersion c).
Proof.
  intros U Q E I. unfold bom_of_json in E. destruct (too_deep (JObj ms)); [discriminate|]. apply bind_ok in E as (v & Ev & E). injection E as <-.
  apply finish_ok in Ev. rewrite bom_zero in Ev. assert (F : fit (TRef "BOM") v) by (eapply dec_fit; [exact U|exact bom_wk|exact Ev]).
  pose proof (reify_reflect v F) as R. rewrite jdec_eq, node_plain in Ev; [|discriminate|reflexivity].
  unfold plain in Ev. change (kind_of (TRef "BOM")) with (KStruct fields_BOM) in Ev. rewrite (zero_struct (TRef "BOM") fields_BOM eq_refl) in Ev.
  cbn [fields_of_val] in Ev. cbv iota in Ev.
  destruct (dec_struct (shape_of (JObj ms)) fields_BOM (zeros_of fields_BOM)) as [[vs err]|] eqn:D; [|discriminate]. injection Ev as <- ->.
  assert (N4 : nth_error fields_BOM 4 = Some version_field) by reflexivity.
  assert (J4 : json_info version_field = Some ("specVersion", false)) by reflexivity.
  cbn [doc_unique] in Q. destruct Q as (ND & Q).
  assert (S : NoDup (map (fun m => fold_name (fst m)) (map (fun m => (fst m, mkMember (is_null (snd m)) (jdec (snd m)))) ms))) by (rewrite map_map; exact ND).
  cbn [shape_of dec_struct] in D.
  destruct (dec_unique fields_BOM (struct_names (TRef "BOM") fields_BOM eq_refl) _ (zeros_of fields_BOM) vs S) as (_ & H); trivial.
  { intros i f n om Nf _ _. apply zeros_nth, Nf. }
  destruct (H 4 version_field N4) as [(U4 & _)|(w & Qw & n & om & k & m & Jn & Im & Fk & Dw)].
  - exfalso. apply (U4 "specVersion" false "specVersion" (mkMember false (jdec (JStr x))) J4); [|reflexivity]. apply in_map_iff. exists ("specVersion", JStr x). auto.
  - rewrite J4 in Jn. injection Jn as <- <-. apply in_map_iff in Im as ([k' y] & [= -> <-] & Im). cbn [snd m_dec] in Dw.
    pose proof (unique_member ms k "specVersion" y (JStr x) ND Im I Fk) as ->. change (f_ty version_field) with (TRef "SpecVersion") in Dw.
    change (match parse_spec_version x with Some z => DVal (VInt z) None | None => DAbort EInvalidSpecVersion end = DVal w None) in Dw.
    destruct (parse_spec_version x) as [z|]; [|discriminate]. injection Dw as <-.
    f_equal. generalize dependent (reflect_BOM (VStruct vs)). intros b R.
    assert (G : nth_error (fields_of_val (reify_BOM b)) 4 = Some (VInt z)) by (rewrite R; exact Qw).
    clear -G. destruct b. cbn in G. injection G as ->. reflexivity.
Qed.
