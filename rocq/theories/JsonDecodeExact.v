(** What decoding a document with distinct keys into a fresh value gives is lossless. *)
From Verif Require Import Base Types Univ TypeTable Wt Reify ReifyBase Consts LinkModel Version ConvertModel ConvertSpec VersionProofs Numbers NumbersProofs Utf8 Utf8Proofs GobModel GobProofs JsonModel JsonBack JsonProofs JsonHooks JsonHookPatent JsonRound JsonSpec JsonLossless JsonDecode.
From Coq Require Import Lia.
Local Open Scope string_scope.

(** ** Zero values are lossless *)
Fixpoint zl (n : nat) (t : ty) : bool :=
  match kind_of t with
  | KStruct fs =>
      match n, marshal_hook t with
      | S n', HNone => forallb (fun f => zl n' (f_ty f)) fs
      | _, _ => false
      end
  | KBad => false
  | _ => true
  end.
Lemma losses_zero fs : (forall f, In f fs -> lossless (f_ty f) (zero_of (f_ty f))) -> fields_lossless fs (zeros_of fs) (losses (zeros_of fs) fs).
Proof.
  induction fs as [|f fs IH]; intros H; [exact I|]. cbn [zeros_of map losses fields_lossless]. split; [|apply IH; intros g Hg; apply H; right; exact Hg].
  destruct (json_info f) as [[n om]|]; [|reflexivity]. destruct (om && _)%bool; [reflexivity|apply H; left; reflexivity].
Qed.
Lemma zl_lossless n : forall t, zl n t = true -> lossless t (zero_of t).
Proof.
  induction n as [|n IH]; intros t Z; cbn [zl] in Z; destruct (kind_of t) as [| | | |t'|t'|fs|] eqn:K; try discriminate Z;
    try (unfold zero_of; cbn [zero_n]; rewrite K; cbn [lossless]; try exact I; constructor; fail).
  destruct (marshal_hook t) eqn:H; try discriminate Z. rewrite (zero_struct t fs K), lossless_struct, H, (fields_of_kind t fs K).
  apply losses_zero. intros f Hf. rewrite forallb_forall in Z. apply IH, Z, Hf.
Qed.

Definition field_fine (f : field) : bool :=
  match json_info f with
  | Some (_, om) => zl 3 (f_ty f) && (negb om || match kind_of (f_ty f) with KSlice _ | KFlt => false | _ => true end)
  | None => true
  end.
Lemma defs_fine : forallb (fun d => match snd d with DStruct fs => forallb field_fine fs | DAlias _ => true end) defs = true.
Proof. vm_compute. reflexivity. Qed.
Lemma struct_fine t fs : kind_of t = KStruct fs -> forall f, In f fs -> field_fine f = true.
Proof.
  intros K. apply kind_struct_in in K as (n & _ & I). pose proof defs_fine as D. rewrite forallb_forall in D. specialize (D _ I). cbn in D.
  rewrite forallb_forall in D. exact D.
Qed.
Lemma zero_by_kind t : zero_of t = match kind_of t with
  | KStr => VStr "" | KInt => VInt 0 | KBool => VBool false | KFlt => VFlt fzero | KPtr _ => VPtr None | KSlice _ => VSlice None
  | KStruct fs => VStruct (zeros_of fs) | KBad => VStruct [] end.
Proof.
  destruct (kind_of t) eqn:K; try (unfold zero_of; cbn [zero_n]; rewrite K; reflexivity). apply zero_struct, K.
Qed.
Lemma empty_zero f n v : field_fine f = true -> json_info f = Some (n, true) -> wt (f_ty f) v -> empty_value v = true -> v = zero_of (f_ty f).
Proof.
  intros F J W E. unfold field_fine in F. rewrite J in F. apply andb_prop in F as (_ & F). cbn [negb orb] in F.
  rewrite zero_by_kind. destruct v as [s|z|b|x|[p|]|[l|]|vs]; cbn [empty_value wt] in *; try discriminate E.
  - rewrite W. apply String.eqb_eq in E. congruence.
  - rewrite W. apply Z.eqb_eq in E. congruence.
  - rewrite W. destruct b; [discriminate|reflexivity].
  - rewrite W in F. discriminate.
  - destruct (kind_of (f_ty f)); try contradiction. reflexivity.
  - destruct (kind_of (f_ty f)); try contradiction. discriminate.
  - destruct (kind_of (f_ty f)); try contradiction. discriminate.
Qed.

(** ** Decoders whose results are lossless *)
Definition exact (null : bool) (d : decoder) : Prop := forall t v, ok_ty t = true -> wk t = true -> d t (zero_of t) = DVal v None ->
  fit t v /\ lossless t v /\ (null = false -> nulls t v = false).
Definition shape_exact (s : shape) : Prop :=
  match s with
  | SStr x => utf8 x
  | SArr ds => Forall (exact true) ds
  | SObj ms => Forall (fun m => exact (m_null (snd m)) (m_dec (snd m))) ms /\ NoDup (map (fun m => fold_name (fst m)) ms)
  | _ => True
  end.

Definition source (s : shape) : list (string * member) := match s with SObj ms => ms | _ => [] end.
Lemma struct_parts s fs vs : shape_exact s -> names_ok fs -> dec_struct s fs (zeros_of fs) = inl (vs, None) ->
  length vs = length fs /\
  forall i f, nth_error fs i = Some f -> exists v, nth_error vs i = Some v /\ ((untouched (source s) f /\ v = zero_of (f_ty f)) \/ comes_from (source s) f v).
Proof.
  intros S N E. destruct s; cbn [dec_struct] in E; try discriminate E.
  - injection E as <-. split; [unfold zeros_of; apply map_length|]. intros i f Nf. exists (zero_of (f_ty f)). split; [apply zeros_nth, Nf|].
    left. split; [intros n om k m _ []|reflexivity].
  - destruct S as (_ & ND). destruct (dec_unique fs N ms (zeros_of fs) vs ND) as (L & H); trivial.
    + unfold zeros_of. apply map_length.
    + intros i f n om Nf _ _. apply zeros_nth, Nf.
    + split; [exact L|]. intros i f Nf. destruct (H i f Nf) as [(U & Q)|(v & Q & C)].
      * exists (zero_of (f_ty f)). split; [rewrite Q; apply zeros_nth, Nf|left; auto].
      * exists v. split; [exact Q|right; exact C].
Qed.

Lemma comes_exact s f v : shape_exact s -> ok_ty (f_ty f) = true -> wk (f_ty f) = true -> comes_from (source s) f v -> fit (f_ty f) v /\ lossless (f_ty f) v.
Proof.
  intros S O W (n & om & k & m & J & I & _ & D). destruct s; try contradiction. destruct S as (S & _). rewrite Forall_forall in S.
  destruct (S _ I _ _ O W D) as (A & B & _). auto.
Qed.

Lemma lossless_from fs : forall vs, length vs = length fs -> (forall f, In f fs -> field_fine f = true) ->
  (forall i f, nth_error fs i = Some f -> exists v, nth_error vs i = Some v /\
     (v = zero_of (f_ty f) \/ (json_info f <> None /\ fit (f_ty f) v /\ lossless (f_ty f) v))) ->
  fields_lossless fs vs (losses vs fs).
Proof.
  induction fs as [|f fs IH]; intros [|v vs] L FF H; try discriminate L; [exact I|]. cbn [losses fields_lossless]. split.
  - destruct (H 0 f eq_refl) as (v' & Q & C). cbn [nth_error] in Q. injection Q as <-.
    pose proof (FF f (or_introl eq_refl)) as F0. destruct (json_info f) as [[n om]|] eqn:J.
    + destruct (om && empty_value v)%bool eqn:E.
      * apply andb_prop in E as (-> & E). destruct C as [C|(_ & C & _)]; [exact C|]. eapply empty_zero; [exact F0|exact J|apply fit_wt, C|exact E].
      * destruct C as [->|(_ & _ & C)]; [|exact C]. unfold field_fine in F0. rewrite J in F0. apply andb_prop in F0 as (F0 & _). eapply zl_lossless, F0.
    + destruct C as [C|(C & _)]; [exact C|congruence].
  - apply IH; [injection L as L; exact L|intros g Hg; apply FF; right; exact Hg|]. intros i g Ng. exact (H (S i) g Ng).
Qed.

Lemma struct_lossless t fs s vs : kind_of t = KStruct fs -> shape_exact s -> dec_struct s fs (zeros_of fs) = inl (vs, None) ->
  fits vs fs /\ fields_lossless fs vs (losses vs fs).
Proof.
  intros K S E. destruct (struct_parts s fs vs S (struct_names t fs K) E) as (L & H).
  assert (P : forall i f, nth_error fs i = Some f -> exists v, nth_error vs i = Some v /\
     (v = zero_of (f_ty f) \/ (json_info f <> None /\ fit (f_ty f) v /\ lossless (f_ty f) v))).
  { intros i f Nf. destruct (H i f Nf) as (v & Q & [(_ & C)|C]); exists v; split; trivial; [left; exact C|right].
    pose proof (nth_error_In _ _ Nf) as I. pose proof (wk_struct t fs K) as Wk. rewrite Forall_forall in Wk.
    pose proof (struct_ok t fs K) as Ok. rewrite forallb_forall in Ok.
    destruct (comes_exact s f v S (Ok f I) (Wk f I) C) as (A & B). destruct C as (n & om & k & m & J & _). rewrite J. split; [discriminate|auto]. }
  split; [|apply lossless_from; [exact L|apply (struct_fine t), K|exact P]].
  unfold fits. pose proof (wk_struct t fs K) as Wk. clear -L P Wk. revert vs L P. induction fs as [|f fs IH]; intros [|v vs] L P; try discriminate L; [exact I|].
  apply Forall_cons_iff in Wk as (Wf & Wk). split.
  - destruct (P 0 f eq_refl) as (v' & Q & C). injection Q as <-. destruct C as [->|(_ & C & _)]; [apply fit_zero, wk_kind, Wf|exact C].
  - apply (IH Wk); [injection L as L; exact L|]. intros i g Ng. exact (P (S i) g Ng).
Qed.

Lemma elements_exact ds t : Forall (exact true) ds -> ok_ty t = true -> wk t = true -> forall l,
  dec_elements ds t [] = inl (l, None) -> list_all (fit t) l /\ list_all (lossless t) l.
Proof.
  intros K O W. induction K as [|d ds Kd _ IH]; intros l E; cbn [dec_elements hd tl] in E.
  - injection E as <-. split; exact I.
  - destruct (d t (zero_of t)) as [v err|] eqn:D; [|discriminate].
    destruct (dec_elements ds t []) as [[l' err']|] eqn:E'; [|discriminate]. destruct err; [discriminate|]. injection E as <- ->.
    destruct (Kd t v O W D) as (A & B & _). destruct (IH l' eq_refl) as (C & G). split; split; assumption.
Qed.

(** A type without UnmarshalJSON that is not a pointer. *)
Lemma plain_exact s t v : shape_exact s -> ok_ty t = true -> wk t = true -> marshal_hook t = HNone \/ marshal_hook t = HLicense -> (forall t', t <> TPtr t') ->
  plain s t (zero_of t) = DVal v None -> fit t v /\ lossless t v /\ (s <> SNull -> nulls t v = false).
Proof.
  intros S O W H NP E. rewrite zero_by_kind in E. unfold plain in E. destruct (kind_of t) as [| | | |t'|t'|fs|] eqn:K.
  8: { exfalso. eapply wk_kind; eassumption. }
  5: { destruct (kind_ptr t t' O K) as (-> & _). exfalso. eapply NP. reflexivity. }
  6: { cbn [fields_of_val] in E. destruct (dec_struct s fs (zeros_of fs)) as [[vs err]|] eqn:D; [|discriminate]. injection E as <- ->.
       destruct (struct_lossless t fs s vs K S D) as (A & B). split; [cbn [fit]; rewrite K; exact A|]. split.
       - rewrite lossless_struct, (fields_of_kind t fs K). destruct H as [H|H]; rewrite H; exact B.
       - intros _. cbn [nulls]. destruct H as [H|H]; rewrite H; reflexivity. }
  1-4: assert (H' : marshal_hook t <> HSpecVersion) by (destruct H as [H|H]; rewrite H; discriminate).
  1-4: destruct s; try discriminate E.
  1-8: try (injection E as <-).
  all: try (cbn [fit lossless nulls]; repeat split; trivial; try constructor; fail).
  - cbn [fit lossless nulls]. repeat split; trivial. destruct (marshal_hook t); trivial; contradiction.
  - destruct (atoi lit) as [z|] eqn:A; [|discriminate]. injection E as <-. cbn [fit lossless nulls]. repeat split; trivial.
    apply atoi_int in A. destruct (marshal_hook t); trivial; contradiction.
  - destruct (parse_float (match t with TF32 => true | _ => false end) lit) as [f|] eqn:A; [|discriminate]. injection E as <-.
    cbn [fit lossless nulls]. repeat split; trivial. apply parse_float_ok in A. exact A.
  - destruct s; try discriminate E.
    + injection E as <-. cbn [fit lossless nulls]. rewrite K. repeat split; trivial. congruence.
    + cbn [list_of_slice] in E. destruct (dec_elements ds t' []) as [[l err]|] eqn:D; [|discriminate]. injection E as <- ->.
      destruct (elements_exact ds t' S (elem_ok_ok _ (slice_ok t t' O K)) (wk_slice t t' W K) l D) as (A & B).
      cbn [fit lossless nulls]. rewrite K. unfold elem_ty. rewrite K. auto.
Qed.

(** ** The UnmarshalJSON methods *)
Lemma into_exact s t v : shape_exact s -> ok_ty t = true -> wk t = true -> marshal_hook t = HNone \/ marshal_hook t = HLicense -> (forall t', t <> TPtr t') ->
  unmarshal_into s t = Ok v -> fit t v /\ lossless t v /\ (s <> SNull -> nulls t v = false).
Proof. intros S O W H NP E. apply finish_ok in E. eapply plain_exact; eassumption. Qed.

(** A field read twice gives the same. *)
Lemma peek_same s go js x t fs i f om vs : shape_exact s -> json_info (mkField go TStr ("json:""" ++ js ++ """") false) = Some (js, false) ->
  peek s go js = Ok x -> kind_of t = KStruct fs -> nth_error fs i = Some f -> json_info f = Some (js, om) -> f_ty f = TStr ->
  dec_struct s fs (zeros_of fs) = inl (vs, None) -> nth_error vs i = Some (VStr x).
Proof.
  intros S Jp P K Nf J T E. unfold peek in P.
  destruct (dec_struct s (peek_field go js) [VStr ""]) as [[l [e|]]|] eqn:D; try (destruct l as [|[] [|? ?]]; discriminate P); try discriminate P.
  destruct l as [|[y| | | | | |] [|? ?]]; try discriminate P. injection P as ->.
  assert (NP : names_ok (peek_field go js)).
  { intros a b p q n o m r Na Nb _ _ _. destruct a as [|[|a]], b as [|[|b]]; try discriminate Na; try discriminate Nb. reflexivity. }
  destruct (struct_parts s _ _ S NP D) as (_ & HP). destruct (HP 0 _ eq_refl) as (v & Q & C). injection Q as <-.
  destruct (struct_parts s fs vs S (struct_names t fs K) E) as (_ & HF). destruct (HF i f Nf) as (w & Qw & Cw). rewrite Qw. f_equal.
  cbn [f_ty] in C. destruct C as [(U & Z)|(n & o & k & m & Jn & I & F & M)], Cw as [(U' & Z')|(n' & o' & k' & m' & Jn' & I' & F' & M')].
  - rewrite Z', T. symmetry. exact Z.
  - exfalso. rewrite J in Jn'. injection Jn' as <- <-. exact (U js false k' m' Jp I' F').
  - exfalso. rewrite Jp in Jn. injection Jn as <- <-. exact (U' js om k m J I F).
  - rewrite J in Jn'. injection Jn' as <- <-. rewrite Jp in Jn. injection Jn as <- <-. rewrite T in M'.
    assert (Same : m = m').
    { destruct s; try contradiction. destruct S as (_ & ND). cbn [source] in I, I'. clear -I I' F F' ND. induction ms as [|[k0 m0] ms IH]; [contradiction|].
      cbn [map fst] in ND. inversion ND as [|? ? NI ND']; subst.
      destruct I as [[= -> ->]|I], I' as [[= -> ->]|I']; [reflexivity| | |apply IH; assumption].
      - exfalso. apply NI. rewrite F, <- F'. apply in_map_iff. exists (k', m'). auto.
      - exfalso. apply NI. rewrite F', <- F. apply in_map_iff. exists (k, m). auto. }
    subst m'. cbn [f_ty] in M. rewrite M in M'. injection M' as <-. reflexivity.
Qed.
Lemma into_struct s t fs v : kind_of t = KStruct fs -> unmarshal_into s t = Ok v -> exists vs, v = VStruct vs /\ dec_struct s fs (zeros_of fs) = inl (vs, None).
Proof.
  intros K E. apply finish_ok in E. unfold plain in E. rewrite K, (zero_struct t fs K) in E. cbn [fields_of_val] in E.
  destruct (dec_struct s fs (zeros_of fs)) as [[vs err]|]; [|discriminate]. injection E as <- ->. eauto.
Qed.

Definition method_ok (t : ty) (h : hook) (fs : list field) : Prop := forall s v, shape_keeps s -> shape_exact s ->
  unmarshal h s t (zeros_of fs) = Ok v -> lossless t v /\ (s <> SNull -> nulls t v = false).

Ltac sub E := apply into_exact in E; [|assumption|reflexivity|reflexivity|left; reflexivity|discriminate].

Lemma lossless_ptr t v : nulls t v = false -> lossless t v -> lossless (TPtr t) (some_ptr v).
Proof. intros N L. exact (conj N L). Qed.
Lemma nulls_struct t vs : marshal_hook t = HNone -> nulls t (VStruct vs) = false.
Proof. intros H. cbn [nulls]. rewrite H. reflexivity. Qed.
Lemma struct_shape t fs v : kind_of t = KStruct fs -> fit t v -> exists vs, v = VStruct vs.
Proof. intros K F. apply fit_wt in F. destruct (wt_struct t fs v K F) as (vs & -> & _). eauto. Qed.
Lemma lossless_ptr_struct t fs v : kind_of t = KStruct fs -> marshal_hook t = HNone -> fit t v -> lossless t v -> lossless (TPtr t) (some_ptr v).
Proof. intros K H F L. apply lossless_ptr; [|exact L]. destruct (struct_shape t fs v K F) as (vs & ->). apply nulls_struct, H. Qed.

Lemma method_environment : method_ok (TRef "EnvironmentVariableChoice") HEnvironmentVariable fields_EnvironmentVariableChoice.
Proof.
  intros s v Sk S E. change (zeros_of fields_EnvironmentVariableChoice) with [VPtr None; VStr ""] in E. cbn [unmarshal] in E.
  destruct (plain s (TRef "Property") (zero_of (TRef "Property"))) as [p err|] eqn:P; [|discriminate].
  assert (Fp : fit (TRef "Property") p) by (eapply plain_keeps; [exact Sk|reflexivity|discriminate|discriminate| |exact P]; apply fit_zero; discriminate).
  assert (G : (if negb (zero_value p) then Ok (VStruct [some_ptr p; VStr ""])
               else match plain s TStr (VStr "") with
                    | DAbort e => Err e
                    | DVal v err' => match err' with None | Some (EType "object") => Ok (VStruct [VPtr None; v]) | Some e => Err e end
                    end) = Ok v).
  { destruct err as [e|]; [|exact E]. destruct e; try discriminate E.
    repeat (match type of E with context [match ?x with _ => _ end] => destruct x end; try discriminate E; try exact E). }
  clear E P. destruct (zero_value p) eqn:Z; cbn [negb] in G.
  - destruct (plain s TStr (VStr "")) as [w err'|] eqn:Q; [|discriminate].
    assert (Fw : fit TStr w) by (eapply plain_keeps; [exact Sk|reflexivity|discriminate|discriminate| |exact Q]; split; [reflexivity|constructor]).
    assert (R : VStruct [VPtr None; w] = v).
    { destruct err' as [e|]; [|congruence]. destruct e; try discriminate G.
      repeat (match type of G with context [match ?x with _ => _ end] => destruct x end; try discriminate G; try congruence). }
    subst v. destruct (wt_str w (fit_wt _ _ Fw)) as (x & ->). split; [left; split; [reflexivity|apply Fw]|reflexivity].
  - injection G as <-. split; [|reflexivity]. right. split; [exists p; auto|]. split; [|reflexivity].
    pose proof Fp as Fp'. change (fits (fields_of_val p) fields_Property) with (match p with VStruct l => fits l fields_Property | _ => fits [] fields_Property end).
    destruct (struct_shape (TRef "Property") fields_Property p eq_refl Fp) as (vs & ->).
    change (fits vs fields_Property) in Fp'. unfold fits, fields_Property in Fp'. fields Fp'. cbn [f_ty] in *.
    destruct (wt_str v (fit_wt _ _ F)) as (a & ->), (wt_str v0 (fit_wt _ _ F0)) as (b & ->).
    apply (lossless_ptr_struct (TRef "Property") fields_Property); [reflexivity|reflexivity|exact Fp|].
    change (fields_lossless fields_Property [VStr a; VStr b] [utf8 a; utf8 b]). destruct F as (_ & F), F0 as (_ & F0).
    cbn [fields_lossless fields_Property]. 
    repeat match goal with |- context [json_info ?f] => let x := eval vm_compute in (json_info f) in change (json_info f) with x end.
    cbv iota beta zeta. cbn [andb empty_value]. repeat match goal with |- context [String.eqb ?x ""] => destruct (String.eqb_spec x "") as [->|] end; repeat split; trivial.
Qed.

Lemma method_dataset : method_ok (TRef "MLDatasetChoice") HDataset fields_MLDatasetChoice.
Proof.
  intros s v Sk S E. change (zeros_of fields_MLDatasetChoice) with [VStr ""; VPtr None] in E. cbn [unmarshal] in E.
  apply bind_ok in E as (r & Er & E). sub Er. destruct Er as (Fr & _ & _).
  destruct r as [| | | | | |[|[x| | | | | |] [|? ?]]]; try discriminate E. destruct Fr as ((_ & Fx) & _).
  destruct (String.eqb_spec x "") as [->|N]; cbn [negb] in E.
  - apply bind_ok in E as (d & Ed & E). sub Ed. destruct Ed as (Fd & Ld & _). injection E as <-. split; [|reflexivity].
    right. split; [reflexivity|]. destruct (zero_value d) eqn:Z; [left; reflexivity|]. right. split; [exists d; auto|].
    apply (lossless_ptr_struct (TRef "ComponentData") fields_ComponentData); trivial.
  - injection E as <-. split; [|reflexivity]. left. split; [congruence|]. split; [exact Fx|reflexivity].
Qed.

Lemma method_tools : method_ok (TRef "ToolsChoice") HTools fields_ToolsChoice.
Proof.
  intros s v Sk S E. change (zeros_of fields_ToolsChoice) with [VPtr None; VPtr None; VPtr None] in E. cbn [unmarshal] in E.
  destruct (unmarshal_into s (TRef "toolsChoiceJSON")) as [r|e] eqn:Er.
  - destruct (into_struct s (TRef "toolsChoiceJSON") fields_toolsChoiceJSON r eq_refl Er) as (vs & -> & D).
    destruct (struct_lossless (TRef "toolsChoiceJSON") fields_toolsChoiceJSON s vs eq_refl S D) as (F & L).
    unfold fits, fields_toolsChoiceJSON in F. fields F. cbn [f_ty] in *. injection E as <-.
    split; [|destruct (nonnil v0 || nonnil v1)%bool; reflexivity]. unfold fields_toolsChoiceJSON in L. cbn [losses fields_lossless f_ty] in L.
    repeat match type of L with context [json_info ?f] => let x := eval vm_compute in (json_info f) in change (json_info f) with x in L end.
    cbv iota beta in L. cbn [andb] in L. destruct L as (L0 & L1 & _).
    destruct (nonnil v0 || nonnil v1)%bool; right; [|repeat split].
    split; [reflexivity|]. split.
    + destruct v0 as [| | | |[x|]| |]; try (destruct F0 as (F0 & _); discriminate F0); try contradiction F0; try discriminate F0; [exact L0|exact I].
    + destruct v1 as [| | | |[x|]| |]; try (destruct F1 as (F1 & _); discriminate F1); try contradiction F1; try discriminate F1; [exact L1|exact I].
  - assert (N : s <> SNull) by (intros ->; discriminate Er).
    destruct e; try discriminate E.
    repeat (match type of E with context [match ?x with _ => _ end] => is_var x; destruct x; try discriminate E end).
    apply bind_ok in E as (l & El & E). sub El. destruct El as (Fl & Ll & Nl). injection E as <-.
    split; [|intros _; specialize (Nl N); destruct l as [| | | | |[l|]|]; try reflexivity; discriminate Nl].
    left. split; [eexists; reflexivity|]. split; [|split; reflexivity]. apply lossless_ptr; [apply Nl, N|exact Ll].
Qed.

Lemma method_identity : method_ok (TRef "EvidenceIdentityChoice") HIdentity fields_EvidenceIdentityChoice.
Proof.
  intros s v Sk S E. change (zeros_of fields_EvidenceIdentityChoice) with [VPtr None; VPtr None] in E. cbn [unmarshal] in E.
  assert (G : bind (unmarshal_into s (TRef "EvidenceIdentity")) (fun x => Ok (VStruct [some_ptr x; VPtr None])) = Ok v ->
    lossless (TRef "EvidenceIdentityChoice") v /\ (s <> SNull -> nulls (TRef "EvidenceIdentityChoice") v = false)).
  { clear E. intros E. apply bind_ok in E as (x & Ex & E). sub Ex. destruct Ex as (Fx & Lx & _). injection E as <-. split; [|reflexivity].
    left. split; [eexists; reflexivity|]. split; [|reflexivity]. apply (lossless_ptr_struct (TRef "EvidenceIdentity") fields_EvidenceIdentity); trivial. }
  destruct s; try (apply G, E; fail). clear G.
  apply bind_ok in E as (x & Ex & E). sub Ex. destruct Ex as (Fx & Lx & Nx). injection E as <-.
  split; [|intros N; specialize (Nx N); destruct x as [| | | | |[l|]|]; try reflexivity; discriminate Nx].
  right. split; [reflexivity|]. split; [eexists; reflexivity|]. apply lossless_ptr; [apply Nx; discriminate|exact Lx].
Qed.

Lemma peeked s go js x t fs i f om vs : shape_exact s -> json_info (mkField go TStr ("json:""" ++ js ++ """") false) = Some (js, false) ->
  peek s go js = Ok x -> kind_of t = KStruct fs -> nth_error fs i = Some f -> json_info f = Some (js, om) -> f_ty f = TStr ->
  unmarshal_into s t = Ok (VStruct vs) -> nth_error vs i = Some (VStr x).
Proof.
  intros S J P K Nf Jf T E. destruct (into_struct s t fs _ K E) as (vs' & [= <-] & D). eapply peek_same; eassumption.
Qed.

Lemma method_state : method_ok (TRef "CertificateState") HCertState fields_CertificateState.
Proof.
  intros s v Sk S E. change (zeros_of fields_CertificateState) with [VPtr None; VPtr None] in E. cbn [unmarshal] in E.
  apply bind_ok in E as (x & P & E). destruct (String.eqb_spec x "") as [->|Nx]; cbn [negb] in E;
    apply bind_ok in E as (y & Ey & E); injection E as <-; (split; [|reflexivity]).
  - sub Ey. destruct Ey as (Fy & Ly & _). right. split; [reflexivity|]. split; [eexists; reflexivity|].
    apply (lossless_ptr_struct (TRef "CustomCertificateState") fields_CustomCertificateState); trivial.
  - pose proof Ey as Ey'. sub Ey. destruct Ey as (Fy & Ly & _). destruct (struct_shape (TRef "PredefinedCertificateState") fields_PredefinedCertificateState y eq_refl Fy) as (vs & ->).
    pose proof (peeked s "State" "state" x (TRef "PredefinedCertificateState") fields_PredefinedCertificateState 0 _ false vs S eq_refl P eq_refl eq_refl eq_refl eq_refl Ey') as Q.
    assert (Fy' : fits vs fields_PredefinedCertificateState) by exact Fy. unfold fits, fields_PredefinedCertificateState in Fy'. fields Fy'. injection Q as ->.
    left. split; [eexists _, _; split; [reflexivity|exact Nx]|]. split; [|reflexivity].
    apply (lossless_ptr_struct (TRef "PredefinedCertificateState") fields_PredefinedCertificateState); trivial.
Qed.

Lemma method_extension : method_ok (TRef "CertificateExtension") HCertExtension fields_CertificateExtension.
Proof.
  intros s v Sk S E. change (zeros_of fields_CertificateExtension) with [VPtr None; VPtr None] in E. cbn [unmarshal] in E.
  apply bind_ok in E as (x & P & E). destruct (String.eqb_spec x "") as [->|Nx]; cbn [negb] in E;
    apply bind_ok in E as (y & Ey & E); injection E as <-; (split; [|reflexivity]).
  - sub Ey. destruct Ey as (Fy & Ly & _). right. split; [reflexivity|]. split; [eexists; reflexivity|].
    apply (lossless_ptr_struct (TRef "CustomCertificateExtension") fields_CustomCertificateExtension); trivial.
  - pose proof Ey as Ey'. sub Ey. destruct Ey as (Fy & Ly & _). destruct (struct_shape (TRef "CommonCertificateExtension") fields_CommonCertificateExtension y eq_refl Fy) as (vs & ->).
    pose proof (peeked s "CommonExtensionName" "commonExtensionName" x (TRef "CommonCertificateExtension") fields_CommonCertificateExtension 0 _ false vs S eq_refl P eq_refl eq_refl eq_refl eq_refl Ey') as Q.
    assert (Fy' : fits vs fields_CommonCertificateExtension) by exact Fy. unfold fits, fields_CommonCertificateExtension in Fy'. fields Fy'. injection Q as ->.
    left. split; [eexists _, _; split; [reflexivity|exact Nx]|]. split; [|reflexivity].
    apply (lossless_ptr_struct (TRef "CommonCertificateExtension") fields_CommonCertificateExtension); trivial.
Qed.

Lemma method_patent : method_ok (TRef "PatentChoice") HPatent fields_PatentChoice.
Proof.
  intros s v Sk S E. change (zeros_of fields_PatentChoice) with [VPtr None; VPtr None] in E. cbn [unmarshal] in E.
  apply bind_ok in E as (x & P & E). destruct (String.eqb_spec x "") as [->|Nx]; cbn [negb] in E;
    apply bind_ok in E as (y & Ey & E); injection E as <-; (split; [|reflexivity]).
  - sub Ey. destruct Ey as (Fy & Ly & _). left. split; [eexists; reflexivity|]. split; [|reflexivity].
    apply (lossless_ptr_struct (TRef "Patent") fields_Patent); trivial.
  - pose proof Ey as Ey'. sub Ey. destruct Ey as (Fy & Ly & _). destruct (struct_shape (TRef "PatentFamily") fields_PatentFamily y eq_refl Fy) as (vs & ->).
    pose proof (peeked s "FamilyID" "familyId" x (TRef "PatentFamily") fields_PatentFamily 1 _ false vs S eq_refl P eq_refl eq_refl eq_refl eq_refl Ey') as Q.
    assert (Fy' : fits vs fields_PatentFamily) by exact Fy. unfold fits, fields_PatentFamily in Fy'. fields Fy'. injection Q as ->.
    right. split; [reflexivity|]. split; [eexists _, _, _, _, _; split; [reflexivity|exact Nx]|].
    apply (lossless_ptr_struct (TRef "PatentFamily") fields_PatentFamily); trivial.
Qed.

Lemma method_asserter : method_ok (TRef "AsserterChoice") HAsserter fields_AsserterChoice.
Proof.
  intros s v Sk S E. change (zeros_of fields_AsserterChoice) with [VPtr None; VPtr None; VPtr None] in E. cbn [unmarshal] in E.
  assert (Z : lossless (TRef "AsserterChoice") (VStruct [VPtr None; VPtr None; VPtr None])) by (left; repeat split).
  destruct s.
  { injection E as <-. split; [exact Z|congruence]. }
  all: try (cbn [dec_struct] in E; discriminate E).
  destruct S as (S & _). rewrite Forall_forall in S.
  assert (R : forall d, In (Some d) (dec_raw ms [None; None; None]) -> exact false d).
  { intros d H. apply raw_in in H as [[H|[H|[H|[]]]]|(k & m & I & -> & N)]; try discriminate H. specialize (S _ I). cbn [snd] in S. rewrite N in S. exact S. }
  destruct (dec_raw ms [None; None; None]) as [|[d|] [|[d'|] [|[d''|] [|? ?]]]] eqn:D; try discriminate E.
  all: try (injection E as <-; split; [exact Z|reflexivity]).
  all: apply bind_ok in E as (y & Ey & E); injection E as <-; (split; [|reflexivity]).
  1-4: pose proof (R d (or_introl eq_refl) (TRef "OrganizationalEntity")) as Q; apply finish_ok, Q in Ey as (Fy & Ly & Ny); [|reflexivity|reflexivity].
  5-6: pose proof (R d' (or_intror (or_introl eq_refl)) (TRef "OrganizationalContact")) as Q; apply finish_ok, Q in Ey as (Fy & Ly & Ny); [|reflexivity|reflexivity].
  7: pose proof (R d'' (or_intror (or_intror (or_introl eq_refl))) (TRef "BOMReference")) as Q; apply finish_ok, Q in Ey as (Fy & Ly & Ny); [|reflexivity|reflexivity].
  1-4: left; split; [apply lossless_ptr; auto|split; reflexivity].
  1-2: right; left; split; [reflexivity|]; split; [apply lossless_ptr; auto|reflexivity].
  right; right; split; [reflexivity|]; split; [reflexivity|apply lossless_ptr; auto].
Qed.

Lemma method_ikev2 t fs : hooked_type t HIKEv2 fs -> method_ok t HIKEv2 fs.
Proof.
  intros H s v Sk S E.
  assert (K : kind_of t = KStruct fs) by (eapply hooked_kind, H). pose proof (hooked_marshal _ _ _ H) as M.
  assert (J : exists f fs', fs = f :: fs' /\ f_ty f = TRef "BOMReference" /\ json_info f = None) by (inversion H; subst; eexists _, _; repeat split; reflexivity).
  destruct J as (f & fs' & -> & Tf & Jf). cbn [zeros_of map] in E. rewrite Tf in E. change (zero_of (TRef "BOMReference")) with (VStr "") in E. cbn [unmarshal] in E.
  assert (G : finish (plain s t (VStruct (VStr "" :: map (fun f => zero_of (f_ty f)) fs'))) = Ok v ->
    lossless t v /\ (s <> SNull -> nulls t v = false)).
  { clear E. intros E. apply finish_ok in E. unfold plain in E. rewrite K in E. cbn [fields_of_val] in E.
    destruct (dec_struct s (f :: fs') _) as [[vs err]|] eqn:D; [|discriminate]. injection E as <- ->.
    assert (D' : dec_struct s (f :: fs') (zeros_of (f :: fs')) = inl (vs, None)) by (rewrite <- D; unfold zeros_of; cbn [map]; rewrite Tf; reflexivity).
    destruct (struct_lossless t (f :: fs') s vs K S D') as (Fv & L). split; [|intros _; cbn [nulls]; rewrite M; reflexivity].
    rewrite lossless_struct, M, (fields_of_kind t _ K). destruct vs as [|x vs]; [contradiction|]. cbn [losses choice_lossless].
    right. split; [|exact L]. cbn [losses fields_lossless] in L. rewrite Jf, Tf in L. exact (proj1 L). }
  destruct s; try (apply G, E; fail). clear G. injection E as <-. split; [|intros _; cbn [nulls]; rewrite M; reflexivity].
  rewrite lossless_struct, M, (fields_of_kind t _ K). cbn [losses choice_lossless tl].
  destruct (string_dec s "") as [->|N].
  - right. split; [reflexivity|]. assert (Z : VStr "" :: map (fun f => zero_of (f_ty f)) fs' = zeros_of (f :: fs')) by (unfold zeros_of; cbn [map]; rewrite Tf; reflexivity).
    change (fields_lossless (f :: fs') (VStr "" :: map (fun f => zero_of (f_ty f)) fs') (losses (VStr "" :: map (fun f => zero_of (f_ty f)) fs') (f :: fs'))).
    rewrite Z. apply lossless_from.
    + unfold zeros_of. rewrite map_length. reflexivity.
    + apply (struct_fine t), K.
    + intros i g Ng. exists (zero_of (f_ty g)). split; [apply zeros_nth, Ng|left; reflexivity].
  - left. split; [congruence|]. split; [rewrite Tf; exact S|reflexivity].
Qed.

Lemma methods t h fs : hooked_type t h fs -> h <> HLicense -> method_ok t h fs.
Proof.
  intros H D. pose proof H as H'. inversion H; subst; try congruence.
  all: first [exact method_environment|exact method_dataset|exact method_tools|exact method_identity|exact method_state|exact method_extension
             |exact method_asserter|exact method_patent|apply method_ikev2; exact H'].
Qed.

Lemma node_exact s : shape_keeps s -> shape_exact s -> exact (match s with SNull => true | _ => false end) (node s).
Proof.
  intros Sk S t v O W E.
  assert (F : fit t v) by (eapply node_keeps; [exact Sk|exact W|apply fit_zero, wk_kind, W|exact E]). split; [exact F|].
  assert (G : lossless t v /\ (s <> SNull -> nulls t v = false)); [|destruct G as (G1 & G2); split; [exact G1|destruct s; try discriminate; intros _; apply G2; discriminate]].
  clear F. revert v O W E. induction t; intros v O W E.
  1-5: rewrite node_plain in E; [|discriminate|reflexivity]; apply plain_exact in E as (_ & E1 & E2); auto; discriminate.
  - cbn [node] in E. change (zero_of (TPtr t)) with (VPtr None) in E. cbn [wk] in W.
    assert (Ot : ok_ty t = true) by exact O.
    assert (G : match node s t (zero_of t) with DVal v err => DVal (some_ptr v) err | DAbort e => DAbort e end = DVal v None -> s <> SNull ->
      lossless (TPtr t) v /\ (s <> SNull -> nulls (TPtr t) v = false)).
    { intros G N. destruct (node s t (zero_of t)) as [v' err|] eqn:Nv; [|discriminate]. injection G as <- ->.
      destruct (IHt v' Ot W eq_refl) as (A & B). split; [apply lossless_ptr; auto|exact B]. }
    destruct s; try (apply G; [exact E|discriminate]). injection E as <-. split; [exact I|congruence].
  - rewrite node_plain in E; [|discriminate|reflexivity]; apply plain_exact in E as (_ & E1 & E2); auto; discriminate.
  - destruct (hook_cases (TRef name)) as [H|[[= ->]|(h & fs & H)]].
    + rewrite node_plain in E; [|discriminate|apply unhooked, H]. apply plain_exact in E as (_ & E1 & E2); auto; discriminate.
    + change (node s (TRef "SpecVersion") (zero_of (TRef "SpecVersion"))) with
        (match finish (plain s TStr (VStr "")) with
          | Ok (VStr x) => match parse_spec_version x with Some z => DVal (VInt z) None | None => DAbort EInvalidSpecVersion end
          | Ok _ => DAbort ESyntax
          | Err e => DAbort e
          end) in E.
      destruct (finish (plain s TStr (VStr ""))) as [[x| | | | | |]|]; try discriminate E.
      destruct (parse_spec_version x) as [z|] eqn:P; [|discriminate]. injection E as <-. split; [exact I|reflexivity].
    + assert (D : h = HLicense \/ h <> HLicense) by (destruct h; auto; right; discriminate). destruct D as [->|D].
      * rewrite node_plain in E; [|discriminate|unfold unmarshal_hook; rewrite (hooked_marshal _ _ _ H); reflexivity].
        apply plain_exact in E as (_ & E1 & E2); auto; try discriminate. right. apply (hooked_marshal _ _ _ H).
      * rewrite (hooked_node _ _ _ _ _ H D) in E. rewrite (zero_struct _ fs (hooked_kind _ _ _ H)) in E. cbn [fields_of_val] in E.
        destruct (unmarshal h s (TRef name) (zeros_of fs)) as [v'|] eqn:U; [|discriminate]. injection E as <-.
        exact (methods _ _ _ H D s v' Sk S U).
Qed.

(** Decoding a document with distinct keys gives a value that encoding loses nothing of. *)
Lemma jdec_exact j : doc_utf8 j -> doc_unique j -> exact (is_null j) (jdec j).
Proof.
  induction j as [|b|lit|s|l IH|ms IH] using json_induction; intros U Q; rewrite jdec_eq.
  1: apply (node_exact SNull); exact I.
  1: apply (node_exact (SBool b)); exact I.
  1: apply (node_exact (SNum lit)); exact I.
  1: apply (node_exact (SStr s)); exact U.
  - cbn [doc_utf8 doc_unique] in U, Q. rewrite list_all_forall in U, Q. rewrite Forall_forall in IH, U, Q.
    apply (node_exact (SArr (map jdec l))); cbn [shape_keeps shape_exact]; rewrite Forall_map, Forall_forall; intros x I.
    + apply jdec_keeps; auto.
    + intros t v O W E. destruct (IH x I (U x I) (Q x I) t v O W E) as (A & B & _). repeat split; trivial. discriminate.
  - cbn [doc_utf8 doc_unique] in U, Q. destruct Q as (ND & Q). rewrite list_all_forall in U, Q. rewrite Forall_forall in IH, U, Q.
    apply (node_exact (SObj _)); cbn [shape_keeps shape_exact].
    + rewrite Forall_map, Forall_forall. intros x I. cbn [snd m_dec]. apply jdec_keeps; auto.
    + split; [|rewrite map_map; exact ND]. rewrite Forall_map, Forall_forall. intros x I. cbn [snd m_dec m_null]. exact (IH x I (U x I) (Q x I)).
Qed.
