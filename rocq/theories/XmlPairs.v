(** Lists and pointers; structs written with some fields and read with others. *)
From Verif Require Import Base Types Univ TypeTable Wt ReifyBase Consts Numbers JsonModel JsonProofs JsonHooks XmlModel XmlBack XmlTable XmlSpec XmlValues XmlProofs.
From Coq Require Import Lia.
Local Open Scope string_scope.
Section Limits.
Context {Lim : Limit}.

(** ** A value as one element *)
Definition one_at (t : ty) (v : val) : Prop := forall omit name els, wt t v -> xsane t v ->
  nenc (annotate v) t omit name = Ok els ->
  match bback (back_of v) t omit with
  | None => els = []
  | Some b => exists e, els = [e] /\ named (element_name t name) e /\
                forall e' D, seen e e' -> (D + 2 * tall e' <= limit + 1)%N -> vdec e' t D (zero_of t) = Ok b
  end.
Definition one_ok (v : val) : Prop := forall t, base_ty t = true -> one_at t v.
(** A value as any number of elements *)
Definition many_at (t : ty) (v : val) : Prop := forall omit name els, wt t v -> xsane t v ->
  nenc (annotate v) t omit name = Ok els ->
  Forall (named (element_name t name)) els /\
  forall els' d, Forall2 seen els els' -> Forall (fun x => (d + 2 * tall x <= limit)%N) els' ->
    dec_seq t d els' (zero_of t) = Ok (default t (bback (back_of v) t omit)).

Lemma base_kind b : base_ty b = true -> match kind_of b with KPtr _ | KBad => False | _ => True end.
Proof.
  unfold base_ty. destruct (is_bom b); [discriminate|]. cbn [negb andb].
  destruct b; cbn [kind_of kind_base]; auto; try discriminate. destruct (match assoc name defs with Some (DStruct fs) => KStruct fs | Some (DAlias t') => kind_base t' | None => KBad end); auto; discriminate.
Qed.
Lemma base_slice b t' : base_ty b = true -> kind_of b = KSlice t' -> unmarshaler b <> MNone.
Proof.
  unfold base_ty. destruct (is_bom b); [discriminate|]. cbn [negb andb]. unfold unmarshaler.
  intros H K. destruct b; try discriminate; rewrite K in H; destruct (marshaler (TRef name)); discriminate.
Qed.
Lemma dec_slice_base sp l a ks b d cur : base_ty b = true -> dec_slice sp l a ks b d cur = dec_value sp l a ks b d cur.
Proof.
  intros B. unfold dec_slice. destruct (unmarshaler b) eqn:U; try reflexivity. destruct (kind_of b) eqn:K; try reflexivity.
  exfalso. exact (base_slice b t B K U).
Qed.
Lemma xdec_base e b d cur : base_ty b = true -> is_elem e = true -> (d < limit)%N -> xdec e b d cur = vdec e b d cur.
Proof.
  intros B E L. destruct e as [s|sp l a ks]; [discriminate|]. unfold xdec, vdec. cbn [waiting]. unfold dec_elem.
  replace (limit <=? d)%N with false by (symmetry; apply N.leb_gt; exact L).
  pose proof (base_kind b B) as K. destruct (kind_of b); try contradiction; apply dec_slice_base, B.
Qed.
Lemma xdec_ptr e b d cur : base_ty b = true -> is_elem e = true -> (d < limit)%N ->
  xdec e (TPtr b) d cur = bind (vdec e b d (match cur with VPtr (Some x) => x | _ => zero_of b end)) (fun v => Ok (some_ptr v)).
Proof.
  intros B E L. destruct e as [s|sp l a ks]; [discriminate|]. unfold xdec, vdec. cbn [waiting]. unfold dec_elem.
  replace (limit <=? d)%N with false by (symmetry; apply N.leb_gt; exact L).
  cbn [kind_of kind_base]. rewrite dec_slice_base by exact B. reflexivity.
Qed.
Lemma xdec_slice e b d cur : is_elem e = true -> (d + 1 < limit)%N ->
  xdec e (TSlice b) d cur = bind (vdec e b (N.succ d) (zero_of b)) (fun v => Ok (VSlice (Some (list_of_slice cur ++ [v])%list))).
Proof.
  intros E L. destruct e as [s|sp l a ks]; [discriminate|]. unfold xdec, vdec. cbn [waiting]. unfold dec_elem.
  replace (limit <=? d)%N with false by (symmetry; apply N.leb_gt; lia).
  cbn [kind_of kind_base]. unfold dec_slice. cbn [unmarshaler marshaler kind_of kind_base].
  replace (limit <=? N.succ d)%N with false by (symmetry; apply N.leb_gt; lia). reflexivity.
Qed.
Lemma xdec_ptr_slice e b d cur : is_elem e = true -> (d + 1 < limit)%N ->
  xdec e (TPtr (TSlice b)) d cur =
  bind (vdec e b (N.succ d) (zero_of b)) (fun v =>
    Ok (some_ptr (VSlice (Some (list_of_slice (match cur with VPtr (Some x) => x | _ => VSlice None end) ++ [v])%list)))).
Proof.
  intros E L. destruct e as [s|sp l a ks]; [discriminate|]. unfold xdec, vdec. cbn [waiting]. unfold dec_elem.
  replace (limit <=? d)%N with false by (symmetry; apply N.leb_gt; lia).
  cbn [kind_of kind_base]. unfold dec_slice. cbn [unmarshaler marshaler kind_of kind_base].
  replace (limit <=? N.succ d)%N with false by (symmetry; apply N.leb_gt; lia).
  replace (zero_of (TSlice b)) with (VSlice None) by reflexivity.
  destruct (dec_value sp l a (map waiting ks) b (N.succ d) (zero_of b)); reflexivity.
Qed.

(** Elements one after the other *)
Definition reads (b : ty) (d : N) (e : xml) (w : val) : Prop := is_elem e = true /\ (d + 1 < limit)%N /\ vdec e b (N.succ d) (zero_of b) = Ok w.
Lemma seq_slice b d es ws : Forall2 (reads b d) es ws -> forall s,
  dec_seq (TSlice b) d es (VSlice s) = Ok (match ws with [] => VSlice s | _ => VSlice (Some (list_of_slice (VSlice s) ++ ws)%list) end).
Proof.
  induction 1 as [|e w es ws (E & L & V) _ IH]; intros s; [reflexivity|].
  cbn [dec_seq]. rewrite xdec_slice by assumption. rewrite V. cbn [bind]. rewrite IH. destruct ws; [reflexivity|].
  cbn [list_of_slice]. rewrite <- app_assoc. reflexivity.
Qed.
Lemma seq_ptr_slice b d es ws : Forall2 (reads b d) es ws -> forall cur,
  dec_seq (TPtr (TSlice b)) d es cur =
  Ok (match ws with [] => cur | _ => some_ptr (VSlice (Some (list_of_slice (match cur with VPtr (Some x) => x | _ => VSlice None end) ++ ws)%list)) end).
Proof.
  induction 1 as [|e w es ws (E & L & V) _ IH]; intros cur; [reflexivity|].
  cbn [dec_seq]. rewrite xdec_ptr_slice by assumption. rewrite V. cbn [bind]. rewrite IH. destruct ws; [reflexivity|].
  cbn [list_of_slice]. unfold some_ptr. cbn [list_of_slice]. rewrite <- app_assoc. reflexivity.
Qed.

Lemma element_base b name : element_name (TPtr b) name = element_name b name /\ element_name (TSlice b) name = element_name b name.
Proof. unfold element_name, is_data. cbn [core]. auto. Qed.

(** A list *)
Lemma list_ok b omit name l : base_ty b = true -> Forall (one_at b) l -> list_all (wt b) l -> list_all (xsane b) l ->
  forall els, concat_all (fun n => enc_checked n b omit name) (map annotate l) = Ok els ->
  Forall (named (element_name b name)) els /\
  forall els' d, Forall2 seen els els' -> Forall (fun x => (d + 2 * tall x <= limit)%N) els' ->
    Forall2 (reads b d) els' (somes (fun n => checked_back n b omit) (map back_of l)).
Proof.
  intros B H. induction H as [|v l H _ IH]; intros W S els E.
  - injection E as <-. split; [constructor|]. intros els' d F _. inversion F. constructor.
  - destruct W as (W & Ws), S as (S & Ss). cbn [map concat_all] in E. apply bind_ok in E as (a & A & E). apply bind_ok in E as (c & C & E).
    injection E as <-. destruct (IH Ws Ss c C) as (N & R). clear IH. cbn [map somes].
    unfold checked_back at 1. unfold enc_checked in A.
    assert (V : bval (back_of v) = v) by (destruct v; reflexivity). assert (V' : nval (annotate v) = v) by (destruct v; reflexivity).
    rewrite V. rewrite V' in A. destruct (omit && empty_value v)%bool.
    + injection A as <-. split; assumption.
    + specialize (H omit name a W S A). destruct (bback (back_of v) b omit) as [w|].
      * destruct H as (e & -> & Ne & D). split; [constructor; assumption|]. intros els' d F T. inversion F as [|? e' ? r S' F']; subst.
        inversion T; subst. constructor; [|apply R; assumption]. pose proof (seen_elem _ _ S') as (_ & El). repeat split; auto.
        -- destruct e' as [|sp lo at_ ks]; [discriminate|]. pose proof (tall_pos sp lo at_ ks). lia.
        -- apply D; [assumption|lia].
      * subst a. split; assumption.
Qed.

Lemma many_base t v : base_ty t = true -> one_at t v -> many_at t v.
Proof.
  intros B H omit name els W S En. specialize (H omit name els W S En). destruct (bback (back_of v) t omit) as [r|].
  - destruct H as (e & -> & N & D). split; [constructor; [exact N|constructor]|]. intros els' d F T. inversion F as [|? e' ? r' S' F']; subst.
    inversion F'; subst. inversion T; subst. pose proof (seen_elem _ _ S') as (_ & El).
    assert (L : (d < limit)%N) by (destruct e' as [|sp lo at_ ks]; [discriminate|]; pose proof (tall_pos sp lo at_ ks); lia).
    cbn [dec_seq]. rewrite xdec_base by assumption. rewrite (D e' d) by (assumption || lia). reflexivity.
  - subst. split; [constructor|]. intros els' d F T. inversion F. reflexivity.
Qed.
Lemma many_nil t : many_at (TPtr t) (VPtr None).
Proof. intros omit name els W S En. injection En as <-. split; [constructor|]. intros els' d F _. inversion F. reflexivity. Qed.
Lemma many_ptr t x : base_ty t = true -> one_at t x -> many_at (TPtr t) (VPtr (Some x)).
Proof.
  intros B H omit name els W S En. destruct (element_base t name) as (-> & _). cbn [xsane] in S. change (elem_ty (TPtr t)) with t in S.
  assert (En' : nenc (annotate x) t omit name = Ok els) by exact En. clear En. specialize (H omit name els W S En').
  assert (Bk : bback (back_of (VPtr (Some x))) (TPtr t) omit = option_map some_ptr (bback (back_of x) t omit)) by reflexivity. rewrite Bk.
  destruct (bback (back_of x) t omit) as [r|].
  - destruct H as (e & -> & N & D). split; [constructor; [exact N|constructor]|]. intros els' d F T. inversion F as [|? e' ? r' S' F']; subst.
    inversion F'; subst. inversion T; subst. pose proof (seen_elem _ _ S') as (_ & El).
    assert (L : (d < limit)%N) by (destruct e' as [|sp lo at_ ks]; [discriminate|]; pose proof (tall_pos sp lo at_ ks); lia).
    cbn [dec_seq]. rewrite xdec_ptr by assumption.
    replace (match zero_of (TPtr t) with VPtr (Some x0) => x0 | _ => zero_of t end) with (zero_of t) by reflexivity.
    rewrite (D e' d) by (assumption || lia). reflexivity.
  - subst. split; [constructor|]. intros els' d F T. inversion F. reflexivity.
Qed.
Lemma slice_parts b s omit name els : base_ty b = true -> (forall l, s = Some l -> Forall (one_at b) l) -> wt (TSlice b) (VSlice s) -> xsane (TSlice b) (VSlice s) ->
  nenc (annotate (VSlice s)) (TSlice b) omit name = Ok els ->
  exists ws, bback (back_of (VSlice s)) (TSlice b) omit = match ws with [] => None | _ => Some (VSlice (Some ws)) end /\
    Forall (named (element_name b name)) els /\
    forall els' d, Forall2 seen els els' -> Forall (fun x => (d + 2 * tall x <= limit)%N) els' -> Forall2 (reads b d) els' ws.
Proof.
  intros B E W S En. destruct s as [l|].
  - exists (somes (fun n => checked_back n b omit) (map back_of l)). split.
    + cbn [back_of bback back_value marshaler elem_ty kind_of kind_base]. change (elem_ty (TSlice b)) with b. destruct (somes (fun n => checked_back n b omit) (map back_of l)); reflexivity.
    + apply (list_ok b omit name l B); [apply E; reflexivity|exact W|exact S|exact En].
  - exists []. cbn in En. injection En as <-. repeat split; [constructor|]. intros els' d F _. inversion F. constructor.
Qed.
Lemma many_slice b s : base_ty b = true -> (forall l, s = Some l -> Forall (one_at b) l) -> many_at (TSlice b) (VSlice s).
Proof.
  intros B H omit name els W S En. destruct (element_base b name) as (_ & ->).
  destruct (slice_parts b s omit name els B H W S En) as (ws & Eq & N & D). split; [exact N|]. intros els' d F T. specialize (D els' d F T).
  rewrite Eq. change (zero_of (TSlice b)) with (VSlice None). rewrite (seq_slice _ _ _ _ D). destruct ws; reflexivity.
Qed.
Lemma many_ptr_slice b s : base_ty b = true -> (forall l, s = Some l -> Forall (one_at b) l) -> many_at (TPtr (TSlice b)) (VPtr (Some (VSlice s))).
Proof.
  intros B H omit name els W S En. destruct (element_base (TSlice b) name) as (-> & _). destruct (element_base b name) as (_ & ->).
  cbn [xsane] in S. change (elem_ty (TPtr (TSlice b))) with (TSlice b) in S.
  destruct (slice_parts b s omit name els B H W S En) as (ws & Eq & N & D). split; [exact N|]. intros els' d F T. specialize (D els' d F T).
  assert (Bk : bback (back_of (VPtr (Some (VSlice s)))) (TPtr (TSlice b)) omit = option_map some_ptr (bback (back_of (VSlice s)) (TSlice b) omit)) by reflexivity.
  rewrite Bk, Eq, (seq_ptr_slice _ _ _ _ D). destruct ws; reflexivity.
Qed.

Lemma elements_ok b s : base_ty b = true -> everywhere one_ok (VSlice s) -> forall l, s = Some l -> Forall (one_at b) l.
Proof.
  intros B (_ & E) l ->. apply list_all_Forall in E. eapply Forall_impl; [|exact E]. intros x X. apply (everywhere_here _ _ X), B.
Qed.
Lemma many t v : field_ty t = true -> everywhere one_ok v -> many_at t v.
Proof.
  intros Ft E. assert (Any : (wt t v -> many_at t v) -> many_at t v) by (intros H omit name els W; exact (H W omit name els W)). apply Any. intros W.
  assert (Plain : base_ty t = true -> many_at t v) by (intros B; apply many_base; [exact B|apply (everywhere_here _ _ E), B]).
  destruct t as [| | | | |t|t|n]; try (apply Plain; exact Ft).
  - apply wt_ptr in W as [->|(x & -> & W)]; [apply many_nil|]. destruct E as (_ & E).
    assert (Cases : base_ty t = true \/ exists b, t = TSlice b /\ base_ty b = true).
    { destruct t; try (left; exact Ft). right. exists t. auto. }
    destruct Cases as [B|(b & -> & B)]; [apply many_ptr; [exact B|apply (everywhere_here _ _ E), B]|].
    assert (V : exists s, x = VSlice s) by (destruct (wt_slice _ _ W) as [->|(l & -> & _)]; eauto). destruct V as (s & ->).
    apply many_ptr_slice; [exact B|apply elements_ok; assumption].
  - assert (V : exists s, v = VSlice s) by (destruct (wt_slice _ _ W) as [->|(l & -> & _)]; eauto). destruct V as (s & ->).
    apply many_slice; [exact Ft|apply elements_ok; assumption].
Qed.
End Limits.
