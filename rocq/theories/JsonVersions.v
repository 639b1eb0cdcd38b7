(** Copying and converting a BOM that can be encoded as JSON gives a BOM that can be encoded,
    if no tools choice in it is without tools: for C15. *)
From Verif Require Import Base Types Univ TypeTable Wt ReifyBase Reify ReifyFacts Consts GobModel GobProofs Version ConvertModel ConvertSpec ConvertProofs JsonModel JsonBack JsonProofs JsonHooks JsonRound JsonSpec JsonErrors JsonBom JsonBlame.
From Coq Require Import Lia.
Local Open Scope string_scope.

Lemma list_all_Forall {A} (P : A -> Prop) l : list_all P l <-> Forall P l.
Proof. induction l as [|x l IH]; cbn; [split; constructor|]. rewrite IH, Forall_cons_iff. reflexivity. Qed.

(** ** What must not be written *)
Definition elements (v : val) : list val := match v with VPtr (Some (VSlice (Some l))) => l | _ => [] end.
Definition no_tool (v : val) : Prop := match v with VStruct [t; c; s] => elements t = [] /\ elements c = [] /\ elements s = [] | _ => False end.
Definition bad (t : ty) (v : val) : Prop := offence t v \/ t = TRef "ToolsChoice" /\ no_tool v.
Definition sound (t : ty) (v : val) : Prop := forall t' v', written t v t' v' -> ~ bad t' v'.
Definition sound_part (p : ty * val) : Prop := sound (fst p) (snd p).
Lemma sound_iff t v : sound t v <-> ~ bad t v /\ Forall sound_part (parts_of t v).
Proof.
  unfold sound_part, sound. rewrite Forall_forall. split.
  - intros C. split; [apply C; constructor|]. intros (t1, v1) I t2 v2 Wr. apply C. eapply written_part; eassumption.
  - intros (O & F) t2 v2 Wr. destruct Wr as [|t1 v1 t2 v2 I Wr]; [exact O|]. exact (F (t1, v1) I t2 v2 Wr).
Qed.
Lemma sound_one t v : Forall sound_part [(t, v)] <-> sound t v.
Proof. rewrite Forall_cons_iff. split; [intros (H & _); exact H|]. intros H. split; [exact H|constructor]. Qed.
Lemma sound_nil t : sound t (VPtr None).
Proof. apply sound_iff. split; [intros [O|(_ & O)]; [inversion O|exact O]|constructor]. Qed.
Lemma empty_sound t v : empty_value v = true -> sound t v.
Proof.
  intros E. apply sound_iff. split.
  - intros [O|(_ & O)]; [destruct O; discriminate E|]. destruct v; try exact O. discriminate E.
  - destruct v as [| | | |[x|]|[[|x l]|]|vs]; try constructor; discriminate E.
Qed.
Lemma not_bad t vs : marshal_hook t = HNone -> ~ bad t (VStruct vs).
Proof. intros M [O|(-> & _)]; [inversion O; subst; discriminate M|discriminate M]. Qed.

Fixpoint fields_sound (fs : list field) (vs : list val) : Prop :=
  match fs, vs with
  | f :: fs, v :: vs => (match json_info f with Some _ => sound (f_ty f) v | None => True end) /\ fields_sound fs vs
  | _, _ => True
  end.
Lemma plain_sound fs : forall vs, Forall sound_part (plain_parts fs vs) <-> fields_sound fs vs.
Proof.
  induction fs as [|f fs IH]; intros [|v vs]; cbn [plain_parts fields_sound]; try (split; [trivial|constructor]).
  rewrite <- IH. destruct (json_info f) as [[n om]|]; [|tauto]. destruct (om && empty_value v)%bool eqn:E; [|apply Forall_cons_iff].
  apply andb_prop in E as (_ & E). pose proof (empty_sound (f_ty f) v E). tauto.
Qed.

(** ** Types in which nothing can be wrong *)
Definition offence_names : list string := ["ToolsChoice"; "EvidenceIdentityChoice"; "CertificateState"; "CertificateExtension"; "License"].
Definition within_names (names : list string) : ty -> bool :=
  fix go t := match t with TPtr t' | TSlice t' => go t' | TRef n => existsb (String.eqb n) names | TF32 | TF64 => false | _ => true end.
Definition def_within (names : list string) (d : tdef) : bool :=
  match d with DStruct fs => forallb (fun f => within_names names (f_ty f)) fs | DAlias t => within_names names t end.
Fixpoint narrow (n : nat) (names : list string) : list string :=
  match n with
  | O => names
  | S n' => narrow n' (filter (fun k => match assoc k defs with Some d => def_within names d | None => false end) names)
  end.
Definition harmless_names : list string :=
  Eval vm_compute in narrow 20 (filter (fun n => negb (existsb (String.eqb n) offence_names)) (map fst defs)).
Definition harmless (t : ty) : bool := within_names harmless_names t.
Lemma harmless_closed : forallb (fun d => if existsb (String.eqb (fst d)) harmless_names then def_within harmless_names (snd d) else true) defs = true.
Proof. vm_compute. reflexivity. Qed.
Lemma harmless_def n d : harmless (TRef n) = true -> assoc n defs = Some d -> def_within harmless_names d = true.
Proof.
  intros H A. apply assoc_in in A. pose proof harmless_closed as C. rewrite forallb_forall in C. specialize (C _ A). cbn [fst snd] in C.
  change (existsb (String.eqb n) harmless_names) with (harmless (TRef n)) in C. rewrite H in C. exact C.
Qed.
Lemma harmless_base t t' : def_within harmless_names (DAlias t) = true -> kind_base t = KPtr t' \/ kind_base t = KSlice t' -> harmless t' = true.
Proof. destruct t; cbn; intros H [E|E]; try discriminate; injection E as <-; exact H. Qed.
Lemma harmless_elem t t' : harmless t = true -> kind_of t = KPtr t' \/ kind_of t = KSlice t' -> harmless t' = true.
Proof.
  destruct t as [| | | | | | |n]; cbn [kind_of kind_base]; intros H [E|E]; try discriminate; try (injection E as <-; exact H).
  all: destruct (assoc n defs) as [[fs|u]|] eqn:A; try discriminate; pose proof (harmless_def _ _ H A) as D; eapply harmless_base; eauto.
Qed.
Lemma harmless_fields t fs : harmless t = true -> kind_of t = KStruct fs -> forallb (fun f => harmless (f_ty f)) fs = true.
Proof.
  destruct t as [| | | | | | |n]; cbn [kind_of kind_base]; intros H E; try discriminate.
  destruct (assoc n defs) as [[fs'|u]|] eqn:A; try discriminate; [|destruct u; discriminate]. injection E as <-. exact (harmless_def _ _ H A).
Qed.
Lemma harmless_float t : harmless t = true -> kind_of t = KFlt -> False.
Proof.
  destruct t as [| | | | | | |n]; cbn [kind_of kind_base]; intros H E; try discriminate.
  destruct (assoc n defs) as [[fs|u]|] eqn:A; try discriminate; pose proof (harmless_def _ _ H A) as D; destruct u; discriminate.
Qed.
Lemma harmless_sound t v : harmless t = true -> wt t v -> sound t v.
Proof.
  intros H W t' v' X. revert H W. induction X as [t v|t v t1 v1 t2 v2 I X IH]; intros H W.
  - intros [O|(-> & _)]; [|discriminate H]. destruct O as [t []|t| | | | | | |]; try discriminate H; exact (harmless_float _ H W).
  - assert (P : harmless t1 = true /\ wt t1 v1); [|apply IH; apply P].
    destruct v as [s|z|b|f|[x|]|[l|]|vs]; cbn [parts_of] in I; try contradiction.
    + destruct I as [[= <- <-]|[]]. cbn [wt] in W. unfold elem_ty. destruct (kind_of t) eqn:K; try contradiction. split; [eapply harmless_elem; eauto|exact W].
    + apply in_map_iff in I as (x & [= <- <-] & I). cbn [wt] in W. unfold elem_ty. destruct (kind_of t) eqn:K; try contradiction. split; [eapply harmless_elem; eauto|].
      apply list_all_Forall in W. rewrite Forall_forall in W. exact (W _ I).
    + apply choice_parts_sub in I. cbn [wt] in W. unfold fields_of in I. destruct (kind_of t) eqn:K; try contradiction. split; [|exact (zip_combine wt _ _ W _ I)].
      pose proof (harmless_fields _ _ H K) as F. rewrite forallb_forall in F. apply in_combine_l, in_map_iff in I as (f & <- & I). exact (F _ I).
Qed.
Lemma harmless_sub (h : hook) fs vs : forallb (fun f => harmless (f_ty f)) fs = true -> zip_all (fun f x => wt (f_ty f) x) vs fs -> Forall sound_part (choice_parts h fs vs).
Proof.
  intros H W. rewrite Forall_forall. intros (t1, v1) I. apply choice_parts_sub in I. apply harmless_sound.
  - rewrite forallb_forall in H. apply in_combine_l, in_map_iff in I as (f & <- & I). exact (H _ I).
  - exact (zip_combine wt _ _ W _ I).
Qed.

(** ** The copy *)
Lemma points_canon t v : wt (TPtr t) v -> points (canon v) -> points v.
Proof. intros W (x & E). destruct (nonnil_cases _ _ W) as [(_ & P)|(_ & ->)]; [exact P|discriminate E]. Qed.
Lemma elements_canon t v : wt (TPtr (TSlice t)) v -> elements (canon v) = map canon (elements v).
Proof.
  intros W. destruct (nonnil_cases _ _ W) as [(_ & (x & ->))|(_ & ->)]; [|reflexivity]. cbn [wt kind_of kind_base] in W. destruct x as [| | | | |[[|y l]|]|]; try discriminate W; try (exfalso; exact W); reflexivity.
Qed.
Lemma canon_nil t v : wt (TPtr t) v -> nonnil (canon v) = true -> nonnil v = true.
Proof. intros W N. destruct (nonnil_cases _ _ W) as [(P & _)|(_ & ->)]; [exact P|discriminate N]. Qed.
Ltac split_struct vs Z :=
  lazymatch type of Z with zip_all _ _ ?fs => unfold fs in Z end;
  repeat (let v := fresh "v" in destruct vs as [|v vs]; [exfalso; cbn in Z; tauto|]; cbn [zip_all f_ty] in Z; let W := fresh "W" in destruct Z as (W & Z); cbv beta in W; cbn [f_ty] in W);
  destruct vs; [|exfalso; exact Z]; clear Z.
Definition stays (v : val) : Prop := forall t, wt t v -> sound t v -> sound t (canon v).
Lemma fields_canon fs : forall vs, zip_all (fun f x => wt (f_ty f) x) vs fs -> Forall stays vs -> fields_sound fs vs -> fields_sound fs (map canon vs).
Proof.
  induction fs as [|f fs IH]; intros [|v vs] W D S; cbn [map fields_sound]; try exact I. destruct W as (W1 & W2). destruct S as (S1 & S2). inversion D; subst.
  split; [|apply IH; assumption]. destruct (json_info f); [|exact I]. auto.
Qed.
Lemma hook_canon t h fs vs : hooked_type t h fs -> zip_all (fun f x => wt (f_ty f) x) vs fs -> Forall stays vs -> sound t (VStruct vs) -> sound t (VStruct (map canon vs)).
Proof.
  intros T W D S. destruct (harmless t) eqn:H.
  { apply harmless_sound; [exact H|]. apply (wt_canon (VStruct vs)). cbn [wt]. rewrite (hooked_kind _ _ _ T). exact W. }
  assert (Wc : zip_all (fun f x => wt (f_ty f) x) (map canon vs) fs).
  { assert (X : wt t (canon (VStruct vs))) by (apply wt_canon; cbn [wt]; rewrite (hooked_kind _ _ _ T); exact W). cbn [canon wt] in X. rewrite (hooked_kind _ _ _ T) in X. exact X. }
  rewrite sound_iff in S |- *. destruct S as (B & S). cbn [parts_of] in *. rewrite (hooked_marshal _ _ _ T), (hooked_fields _ _ _ T) in *.
  destruct T; try discriminate H.
  - (* tools *)
    rename W into Z; split_struct vs Z. clear Wc. cbn [map choice_parts f_ty fields_ToolsChoice] in *. repeat match goal with H : Forall stays (_ :: _) |- _ => inversion H; clear H; subst end.
    assert (B1 : ~ (points v /\ (points v0 \/ points v1))) by (intros (P & Q); apply B; left; constructor; assumption).
    split.
    + intros [O|(_ & O)].
      * inversion O; subst; [apply B1; split; [eapply points_canon; eassumption|]; match goal with H : _ \/ _ |- _ => destruct H; [left|right]; eapply points_canon; eassumption end|].
        apply B. right. split; [reflexivity|]. cbn [no_tool].
        assert (X : forall t u, wt (TPtr (TSlice t)) u -> VPtr None = canon u -> elements u = []).
        { intros t u Wu E. pose proof (elements_canon t u Wu) as X. rewrite <- E in X. cbn in X. destruct (elements u); [reflexivity|discriminate X]. }
        repeat split; eapply X; eassumption.
      * cbn [no_tool] in O. rewrite (elements_canon _ _ W), (elements_canon _ _ W0), (elements_canon _ _ W1) in O. apply B. right. split; [reflexivity|]. cbn [no_tool].
        destruct O as (A1 & A2 & A3). apply map_eq_nil in A1, A2, A3. auto.
    + cbn [map choice_parts f_ty] in *. destruct (nonnil (canon v)) eqn:Nv.
      * rewrite (canon_nil _ _ W Nv) in S. apply sound_one in S. apply sound_one. auto.
      * destruct (nonnil v) eqn:Nv'.
        -- assert (P : points v) by (destruct (nonnil_cases _ _ W) as [(_ & P)|(P & _)]; [exact P|congruence]).
           destruct (nonnil_cases _ _ W0) as [(_ & Q)|(_ & ->)]; [exfalso; apply B1; auto|]. destruct (nonnil_cases _ _ W1) as [(_ & Q)|(_ & ->)]; [exfalso; apply B1; auto|]. constructor.
        -- apply Forall_app in S as (S1 & S2). apply Forall_app. split.
           ++ destruct (nonnil (canon v0)) eqn:N0; [|constructor]. rewrite (canon_nil _ _ W0 N0) in S1. apply sound_one in S1. apply sound_one. auto.
           ++ destruct (nonnil (canon v1)) eqn:N0; [|constructor]. rewrite (canon_nil _ _ W1 N0) in S2. apply sound_one in S2. apply sound_one. auto.
  - (* identity *)
    rename W into Z; split_struct vs Z. clear Wc. repeat match goal with H : Forall stays (_ :: _) |- _ => inversion H; clear H; subst end.
    assert (B1 : ~ (points v /\ points v0)) by (intros (P & Q); apply B; left; constructor; assumption).
    split; [intros [O|(O & _)]; [|discriminate O]; cbn [map] in O; inversion O; subst; apply B1; split; eapply points_canon; eassumption|].
    cbn [map choice_parts f_ty fields_EvidenceIdentityChoice] in *. destruct (nonnil (canon v)) eqn:Nv.
    + rewrite (canon_nil _ _ W Nv) in S. apply sound_one in S. apply sound_one. auto.
    + destruct (nonnil (canon v0)) eqn:N0; [|constructor]. pose proof (canon_nil _ _ W0 N0) as N0'. destruct (nonnil v) eqn:Nv'.
      * exfalso. apply B1. split; [destruct (nonnil_cases _ _ W) as [(_ & P)|(P & _)]; [exact P|congruence]|destruct (nonnil_cases _ _ W0) as [(_ & P)|(P & _)]; [exact P|congruence]].
      * rewrite N0' in S. apply sound_one in S. apply sound_one. auto.
  - (* license *)
    split; [|apply harmless_sub; [reflexivity|exact Wc]]. intros [O|(O & _)]; [|discriminate O]. apply B. left. clear B S D Wc H. rename W into Z; split_struct vs Z. cbn [map] in O.
    destruct (wt_str v0 W0) as (s0 & ->). destruct (wt_str v1 W1) as (s1 & ->). cbn [canon] in O. inversion O; subst; constructor; assumption.
  - split; [|apply harmless_sub; [reflexivity|exact Wc]]. intros [O|(O & _)]; [|discriminate O]. apply B. left. clear B S D Wc H. rename W into Z; split_struct vs Z. cbn [map] in O. inversion O; subst. constructor; eapply points_canon; eassumption.
  - split; [|apply harmless_sub; [reflexivity|exact Wc]]. intros [O|(O & _)]; [|discriminate O]. apply B. left. clear B S D Wc H. rename W into Z; split_struct vs Z. cbn [map] in O. inversion O; subst. constructor; eapply points_canon; eassumption.
Qed.
Theorem canon_sound v : stays v.
Proof.
  induction v as [s|z|b|f| |x IH| |l IH|vs IH] using val_induction; intros t W S; try exact S.
  - cbn [canon]. destruct (float_is_zero f) eqn:E; [|exact S]. apply empty_sound. reflexivity.
  - cbn [wt] in W. destruct (kind_of t) as [| | | |t'| | |] eqn:Kt; try contradiction. cbn [canon]. destruct (van x); [apply sound_nil|].
    apply sound_iff in S as (B & S). apply sound_iff. cbn [parts_of] in *. unfold elem_ty in *. rewrite Kt in *. apply sound_one in S. split; [|apply sound_one, IH; assumption].
    intros [O|(_ & O)]; [inversion O|exact O].
  - cbn [wt] in W. destruct (kind_of t) as [| | | | |t'| |] eqn:Kt; try contradiction. destruct l as [|y l]; [apply empty_sound; reflexivity|].
    apply sound_iff in S as (B & S). apply sound_iff. split; [intros [O|(_ & O)]; [inversion O|exact O]|]. change (canon (VSlice (Some (y :: l)))) with (VSlice (Some (map canon (y :: l)))).
    cbn [parts_of] in *. unfold elem_ty in *. rewrite Kt in *. rewrite !Forall_map in *. apply list_all_Forall in W. rewrite Forall_forall in *. intros x I. apply IH; [exact I|exact (W x I)|exact (S x I)].
  - cbn [wt] in W. destruct (kind_of t) as [| | | | | |fs|] eqn:Kt; try contradiction. cbn [canon].
    destruct (hook_cases t) as [H|[->|(h & fs' & H)]]; [|discriminate Kt|].
    + apply sound_iff in S as (B & S). apply sound_iff. split; [apply not_bad, H|]. cbn [parts_of] in *. rewrite H, (fields_of_kind t fs Kt) in *. cbn [choice_parts] in *.
      apply plain_sound in S. apply plain_sound, fields_canon; assumption.
    + rewrite (hooked_kind _ _ _ H) in Kt. injection Kt as <-. eapply hook_canon; eassumption.
Qed.

(** ** The conversion *)
Lemma sound_vptr {A} t (r : A -> val) p : sound (TPtr t) (vptr r p) <-> match p with Some x => sound t (r x) | None => True end.
Proof.
  destruct p as [x|]; unfold vptr; cbn [option_map]; [|split; [trivial|intros _; apply sound_nil]]. rewrite sound_iff. change (parts_of (TPtr t) (VPtr (Some (r x)))) with [(t, r x)]. rewrite sound_one.
  split; [tauto|]. intros F. split; [intros [O|(_ & O)]; [inversion O|exact O]|exact F].
Qed.
Lemma sound_list t e l : kind_of t = KSlice e -> sound t (VSlice (Some l)) <-> Forall (sound e) l.
Proof.
  intros K. rewrite sound_iff. cbn [parts_of]. unfold elem_ty. rewrite K, Forall_map. split; [intros (_ & F); exact F|]. intros F. split; [intros [O|(_ & O)]; [inversion O|exact O]|exact F].
Qed.
Lemma sound_vslice {A} t e (r : A -> val) s : kind_of t = KSlice e -> sound t (vslice r s) <-> match s with Some l => Forall (fun x => sound e (r x)) l | None => True end.
Proof.
  intros K. destruct s as [l|]; unfold vslice; cbn [option_map]; [|split; [trivial|intros _; apply empty_sound; reflexivity]]. rewrite (sound_list _ _ _ K), Forall_map. reflexivity.
Qed.
Lemma sound_members {A} t e (r : A -> val) p : kind_of t = KSlice e -> sound (TPtr t) (vptr (vslice r) p) <-> Forall (fun x => sound e (r x)) (ConvertSpec.members p).
Proof. intros K. rewrite sound_vptr. destruct p as [s|]; [|split; [constructor|trivial]]. rewrite (sound_vslice _ _ _ _ K). destruct s; cbn [ConvertSpec.members]; [reflexivity|]. split; [constructor|trivial]. Qed.
Lemma present_sound {A} t (r : A -> val) f p : (forall x, p = Some x -> sound t (r x) -> sound t (r (f x))) -> sound (TPtr t) (vptr r p) -> sound (TPtr t) (vptr r (if_present f p)).
Proof. rewrite !sound_vptr. destruct p as [x|]; cbn; auto. Qed.
Lemma place_sound {A} t e (r : A -> val) f p : kind_of t = KSlice e -> (forall x, In x (ConvertSpec.members p) -> sound e (r x) -> sound e (r (f x))) -> sound (TPtr t) (vptr (vslice r) p) -> sound (TPtr t) (vptr (vslice r) (in_place f p)).
Proof.
  intros K. rewrite !(sound_members _ _ _ _ K). intros H. destruct p as [[l|]|]; cbn [in_place ConvertSpec.members] in *; try (intros _; constructor). rewrite Forall_map, !Forall_forall. auto.
Qed.
Lemma since_sound {A} v sv t (r : A -> val) p q : (sound (TPtr t) (vptr r q) -> sound (TPtr t) (vptr r p)) -> sound (TPtr t) (vptr r q) -> sound (TPtr t) (vptr r (ptr_since v sv p)).
Proof. intros H F. unfold ptr_since, since. destruct (v <=? sv)%Z; [auto|]. apply sound_nil. Qed.

Fixpoint kept (fs : list field) (vs vs' : list val) : Prop :=
  match fs, vs, vs' with
  | f :: fs, v :: vs, v' :: vs' => (harmless (f_ty f) = true \/ (sound (f_ty f) v -> sound (f_ty f) v')) /\ kept fs vs vs'
  | _, _, _ => True
  end.
Lemma kept_fields fs : forall vs vs', kept fs vs vs' -> zip_all (fun f x => wt (f_ty f) x) vs fs -> zip_all (fun f x => wt (f_ty f) x) vs' fs -> fields_sound fs vs -> fields_sound fs vs'.
Proof.
  induction fs as [|f fs IH]; intros [|v vs] [|v' vs'] K W W' F; cbn [zip_all] in W, W'; try contradiction; [exact I|]. destruct K as (Kf & K). destruct W as (Wf & W). destruct W' as (Wf' & W').
  cbn [fields_sound] in *. destruct F as (Ff & F). split; [|eapply IH; eassumption]. destruct (json_info f); [|exact I]. destruct Kf as [H|Kf]; [apply harmless_sound; assumption|apply Kf, Ff].
Qed.
Lemma struct_sound n fs v v' vs vs' : v = VStruct vs -> v' = VStruct vs' -> kind_of (TRef n) = KStruct fs -> marshal_hook (TRef n) = HNone -> wt (TRef n) v -> wt (TRef n) v' -> kept fs vs vs' ->
  sound (TRef n) v -> sound (TRef n) v'.
Proof.
  intros -> -> K M W W' H F. apply sound_iff in F as (_ & F). apply sound_iff. split; [apply not_bad, M|].
  cbn [parts_of] in *. rewrite M, (fields_of_kind _ _ K) in *. cbn [choice_parts] in *. apply plain_sound in F. apply plain_sound. cbn [wt] in W, W'. rewrite K in W, W'. eapply kept_fields; eassumption.
Qed.
Ltac keep := lazymatch goal with |- _ /\ _ => split; [first [left; reflexivity|right; try (intros F; exact F)]|keep] | |- True => exact I | _ => idtac end.
Ltac struct_in fs typed := eapply struct_sound; [reflexivity|reflexivity|reflexivity|reflexivity|apply typed|apply typed|unfold fs; cbn [kept f_ty]; keep].
Ltac struct_by fs typed eqn := eapply struct_sound; [apply eqn|apply eqn|reflexivity|reflexivity|apply typed|apply typed|unfold fs; cbn [kept f_ty]; keep].

Lemma license_sound sv l : sound (TRef "License") (reify_License l) -> sound (TRef "License") (reify_License (license_in sv l)).
Proof.
  intros F. apply sound_iff in F as (O & _). apply sound_iff. split.
  - intros [Q|(Q & _)]; [|discriminate Q]. apply O. left. unfold reify_License in *. cbn [license_in License_ID License_Name] in *. inversion Q; subst; constructor; assumption.
  - apply harmless_sub; [reflexivity|]. exact (typed_License (license_in sv l)).
Qed.
Lemma license_choice_sound sv c : sound (TRef "LicenseChoice") (reify_LicenseChoice c) -> sound (TRef "LicenseChoice") (reify_LicenseChoice (license_choice_in sv c)).
Proof.
  struct_in fields_LicenseChoice typed_LicenseChoice. cbn [license_choice_in LicenseChoice_License]. apply present_sound. intros x _. apply license_sound.
Qed.
Lemma licenses_sound sv p : sound (TPtr (TRef "Licenses")) (vptr (vslice reify_LicenseChoice) p) -> sound (TPtr (TRef "Licenses")) (vptr (vslice reify_LicenseChoice) (licenses_in sv p)).
Proof.
  intros F. unfold licenses_in. apply place_sound with (e := TRef "LicenseChoice"); [reflexivity|intros x _; apply license_choice_sound|].
  destruct (sv <? v1_1)%Z; [|exact F]. apply (sound_members _ (TRef "LicenseChoice")) in F; [|reflexivity]. apply (sound_members _ (TRef "LicenseChoice")); [reflexivity|].
  destruct p as [[l|]|]; cbn [keep ConvertSpec.members] in *; try constructor. unfold non_empty. destruct (filter named_license l) eqn:E; [constructor|]. rewrite <- E. cbn [ConvertSpec.members].
  rewrite Forall_forall in *. intros c J. apply filter_In in J as (J & _). apply F, J.
Qed.
Lemma identity_sound i : sound (TRef "EvidenceIdentity") (reify_EvidenceIdentity i) -> sound (TRef "EvidenceIdentity") (reify_EvidenceIdentity (identity_in_1_5 i)).
Proof. struct_in fields_EvidenceIdentity typed_EvidenceIdentity. Qed.
Lemma sound_identities i : sound (TRef "EvidenceIdentityChoice") (reify_EvidenceIdentityChoice i) <->
  match EvidenceIdentityChoice_Identity i, EvidenceIdentityChoice_Identities i with
  | Some _, Some _ => False
  | Some x, None => sound (TRef "EvidenceIdentity") (reify_EvidenceIdentity x)
  | None, Some s => match s with Some l => Forall (fun x => sound (TRef "EvidenceIdentity") (reify_EvidenceIdentity x)) l | None => True end
  | None, None => True
  end.
Proof.
  rewrite sound_iff. unfold reify_EvidenceIdentityChoice, parts_of. change (marshal_hook (TRef "EvidenceIdentityChoice")) with HIdentity. change (fields_of (TRef "EvidenceIdentityChoice")) with fields_EvidenceIdentityChoice.
  destruct i as [[x|] [s|]]; cbn [EvidenceIdentityChoice_Identity EvidenceIdentityChoice_Identities].
  - split; [|contradiction]. intros (B & _). apply B. left. constructor; eexists; reflexivity.
  - change (choice_parts HIdentity _ _) with [(TPtr (TRef "EvidenceIdentity"), vptr reify_EvidenceIdentity (Some x))]. rewrite sound_one, sound_vptr.
    split; [tauto|]. intros F. split; [|exact F]. intros [O|(O & _)]; [|discriminate O]. inversion O as [| | | |? ? A (y & C)| | | |]; discriminate C.
  - change (choice_parts HIdentity _ _) with [(TPtr (TSlice (TRef "EvidenceIdentity")), vptr (vslice reify_EvidenceIdentity) (Some s))]. rewrite sound_one, sound_vptr, (sound_vslice _ (TRef "EvidenceIdentity")) by reflexivity.
    split; [tauto|]. intros F. split; [|exact F]. intros [O|(O & _)]; [|discriminate O]. inversion O as [| | | |? ? (y & C) A| | | |]; discriminate C.
  - change (choice_parts HIdentity _ _) with (@nil (ty * val)). split; [trivial|]. intros _. split; [|constructor]. intros [O|(O & _)]; [|discriminate O]. inversion O as [| | | |? ? (y & C) A| | | |]; discriminate C.
Qed.
Lemma identities_sound i i' : identity_choice_in_1_5 i = Some i' -> sound (TRef "EvidenceIdentityChoice") (reify_EvidenceIdentityChoice i) -> sound (TRef "EvidenceIdentityChoice") (reify_EvidenceIdentityChoice i').
Proof.
  rewrite !sound_identities. unfold identity_choice_in_1_5. destruct i as [[x|] [[[|y l]|]|]]; cbn [EvidenceIdentityChoice_Identity EvidenceIdentityChoice_Identities if_present]; intros E; try discriminate E; injection E as <-;
    cbn [EvidenceIdentityChoice_Identity EvidenceIdentityChoice_Identities]; auto; try contradiction.
  - apply identity_sound.
  - intros F. inversion F; subst. apply identity_sound. assumption.
Qed.
Lemma evidence_sound sv e : sound (TRef "Evidence") (reify_Evidence e) -> sound (TRef "Evidence") (reify_Evidence (evidence_in sv e)).
Proof.
  struct_in fields_Evidence typed_Evidence.
  all: cbn [evidence_in Evidence_Identity Evidence_Licenses].
  - intros F. eapply since_sound; [|exact F]. destruct (sv <? v1_6)%Z; [|auto]. rewrite !sound_vptr. destruct (Evidence_Identity e) as [i|]; [|trivial]. destruct (identity_choice_in_1_5 i) eqn:E; [|trivial]. apply identities_sound, E.
  - destruct (sv <? v1_5)%Z; [auto|apply licenses_sound].
Qed.
Lemma considerations_sound sv c : sound (TRef "MLModelCardConsiderations") (reify_MLModelCardConsiderations c) -> sound (TRef "MLModelCardConsiderations") (reify_MLModelCardConsiderations (considerations_in sv c)).
Proof.
  struct_in fields_MLModelCardConsiderations typed_MLModelCardConsiderations.
  all: cbn [considerations_in MLModelCardConsiderations_EnvironmentalConsiderations]; intros F; apply (since_sound _ _ _ _ _ _ (fun F => F) F).
Qed.
Lemma model_card_sound sv c : sound (TRef "MLModelCard") (reify_MLModelCard c) -> sound (TRef "MLModelCard") (reify_MLModelCard (model_card_in sv c)).
Proof. struct_in fields_MLModelCard typed_MLModelCard. cbn [model_card_in MLModelCard_Considerations]. apply present_sound. intros x _. apply considerations_sound. Qed.
Lemma certificate_sound sv c : sound (TRef "CertificateProperties") (reify_CertificateProperties c) -> sound (TRef "CertificateProperties") (reify_CertificateProperties (certificate_in sv c)).
Proof.
  struct_in fields_CertificateProperties typed_CertificateProperties.
  all: cbn [certificate_in CertificateProperties_CertificateState CertificateProperties_CertificateExtensions]; intros F; apply (since_sound _ _ _ _ _ _ (fun F => F) F).
Qed.
Lemma crypto_sound sv c : sound (TRef "CryptoProperties") (reify_CryptoProperties c) -> sound (TRef "CryptoProperties") (reify_CryptoProperties (crypto_in sv c)).
Proof. struct_in fields_CryptoProperties typed_CryptoProperties. cbn [crypto_in CryptoProperties_CertificateProperties]. apply present_sound. intros x _. apply certificate_sound. Qed.
Lemma pedigree_sound sv f p : (forall x, In x (ConvertSpec.members (Pedigree_Ancestors p)) \/ In x (ConvertSpec.members (Pedigree_Descendants p)) \/ In x (ConvertSpec.members (Pedigree_Variants p)) ->
    sound (TRef "Component") (reify_Component x) -> sound (TRef "Component") (reify_Component (f x))) ->
  sound (TRef "Pedigree") (reify_Pedigree p) -> sound (TRef "Pedigree") (reify_Pedigree (pedigree_in sv f p)).
Proof.
  intros H. struct_in fields_Pedigree typed_Pedigree.
  all: cbn [pedigree_in Pedigree_Ancestors Pedigree_Descendants Pedigree_Variants]; apply place_sound with (e := TRef "Component"); [reflexivity|]; intros x I; apply H; auto.
Qed.
Lemma component_sound sv c : sound (TRef "Component") (reify_Component c) -> sound (TRef "Component") (reify_Component (component_in sv c)).
Proof.
  induction c as [c IH] using component_induction. rewrite component_in_fix.
  struct_by fields_Component typed_Component reify_Component_fix.
  all: unfold component_in_; cbn [Component_Licenses Component_Pedigree Component_Components Component_Evidence Component_CryptoProperties Component_ModelCard].
  - apply licenses_sound.
  - intros F. eapply since_sound; [|exact F]. apply present_sound. intros p E. apply pedigree_sound. intros x I. apply IH. right. exists p. auto.
  - apply place_sound with (e := TRef "Component"); [reflexivity|]. intros x I. apply IH. left. exact I.
  - intros F. eapply since_sound; [|exact F]. apply present_sound. intros e _. apply evidence_sound.
  - intros F. eapply since_sound; [|exact F]. apply present_sound. intros e _. apply model_card_sound.
  - intros F. eapply since_sound; [|exact F]. apply present_sound. intros e _. apply crypto_sound.
Qed.
Lemma service_sound sv s : sound (TRef "Service") (reify_Service s) -> sound (TRef "Service") (reify_Service (service_in sv s)).
Proof.
  induction s as [s IH] using service_induction. rewrite service_in_fix.
  struct_by fields_Service typed_Service reify_Service_fix.
  all: unfold service_in_; cbn [Service_Services].
  apply place_sound with (e := TRef "Service"); [reflexivity|]. intros x I. apply IH. exact I.
Qed.
Lemma tool_service_sound sv s : sound (TRef "Service") (reify_Service s) -> sound (TRef "Service") (reify_Service (tool_service_in sv s)).
Proof. unfold tool_service_in. struct_by fields_Service typed_Service reify_Service_fix. Qed.

Lemma elements_list {A} (r : A -> val) p : elements (vptr (vslice r) p) = map r (ConvertSpec.members p).
Proof. destruct p as [[l|]|]; reflexivity. Qed.
Lemma no_tools_iff t : no_tool (reify_ToolsChoice t) <-> all_tools t = [].
Proof.
  unfold no_tool, reify_ToolsChoice, all_tools. rewrite !elements_list. split.
  - intros (A & B & C). apply map_eq_nil in A, B, C. rewrite A, B, C. reflexivity.
  - intros E. apply app_eq_nil in E as (A & E). apply app_eq_nil in E as (B & C). apply map_eq_nil in B, C. rewrite A, B, C. auto.
Qed.
Lemma sound_tools t : sound (TRef "ToolsChoice") (reify_ToolsChoice t) <->
  all_tools t <> [] /\
  match ToolsChoice_Tools t with
  | Some _ => ToolsChoice_Components t = None /\ ToolsChoice_Services t = None
  | None => sound (TPtr (TSlice (TRef "Component"))) (vptr (vslice reify_Component) (ToolsChoice_Components t)) /\ sound (TPtr (TSlice (TRef "Service"))) (vptr (vslice reify_Service) (ToolsChoice_Services t))
  end.
Proof.
  rewrite sound_iff. rewrite <- no_tools_iff. unfold parts_of. change (reify_ToolsChoice t) with (VStruct [vptr (vslice reify_Tool) (ToolsChoice_Tools t); vptr (vslice reify_Component) (ToolsChoice_Components t); vptr (vslice reify_Service) (ToolsChoice_Services t)]).
  change (marshal_hook (TRef "ToolsChoice")) with HTools. change (fields_of (TRef "ToolsChoice")) with fields_ToolsChoice.
  destruct t as [[tools|] comps servs]; cbn [ToolsChoice_Tools ToolsChoice_Components ToolsChoice_Services].
  - change (choice_parts HTools _ _) with [(TPtr (TSlice (TRef "Tool")), vptr (vslice reify_Tool) (Some tools))]. rewrite sound_one. split.
    + intros (B & _). split; [intros N; apply B; right; split; [reflexivity|exact N]|].
      destruct comps, servs; auto; exfalso; apply B; left; constructor; try (eexists; reflexivity); ((left; eexists; reflexivity) || (right; eexists; reflexivity)).
    + intros (N & -> & ->). split.
      * intros [O|(_ & O)]; [|exact (N O)]. inversion O as [| |? ? ? A [(x & B)|(x & B)]| | | | | |]; discriminate B.
      * apply harmless_sound; [reflexivity|]. apply (typed_ptr _ _ (typed_slice _ _ typed_Tool)).
  - change (choice_parts HTools _ _) with ((if nonnil (vptr (vslice reify_Component) comps) then [(TPtr (TSlice (TRef "Component")), vptr (vslice reify_Component) comps)] else []) ++
      (if nonnil (vptr (vslice reify_Service) servs) then [(TPtr (TSlice (TRef "Service")), vptr (vslice reify_Service) servs)] else []))%list.
    rewrite Forall_app. split.
    + intros (B & F1 & F2). split; [intros N; apply B; right; split; [reflexivity|exact N]|].
      split; [destruct comps; [apply sound_one in F1; exact F1|apply sound_nil]|destruct servs; [apply sound_one in F2; exact F2|apply sound_nil]].
    + intros (N & F1 & F2). split.
      * intros [O|(_ & O)]; [|exact (N O)]. inversion O as [| |? ? ? (x & A) _| | | | | |]; [discriminate A|].
        destruct comps, servs; try discriminate. apply N. cbn. auto.
      * split; [destruct comps; [apply sound_one; exact F1|constructor]|destruct servs; [apply sound_one; exact F2|constructor]].
Qed.
Lemma place_members {A B} (f : A -> B) p : ConvertSpec.members (in_place f p) = map f (ConvertSpec.members p).
Proof. destruct p as [[l|]|]; reflexivity. Qed.
Lemma tools_sound sv t : sound (TRef "ToolsChoice") (reify_ToolsChoice t) -> sound (TRef "ToolsChoice") (reify_ToolsChoice (tools_in sv t)).
Proof.
  unfold tools_in. destruct (sv <? v1_5)%Z.
  - rewrite !sound_tools. intros (N & _). destruct (all_tools t) as [|x l] eqn:E; [congruence|]. split; [discriminate|]. cbn. auto.
  - rewrite !sound_tools. intros (N & F). split.
    + unfold all_tools in *. cbn [ToolsChoice_Tools ToolsChoice_Components ToolsChoice_Services] in *. rewrite !place_members. intros E. apply N.
      apply app_eq_nil in E as (A & E). apply app_eq_nil in E as (B & C). apply map_eq_nil in A, B, C. apply map_eq_nil in C. rewrite A, B, C. reflexivity.
    + cbn [ToolsChoice_Tools ToolsChoice_Components ToolsChoice_Services]. destruct (ToolsChoice_Tools t) as [tools|]; cbn [in_place].
      * destruct F as (-> & ->). destruct tools; auto.
      * destruct F as (A & B). split; [exact A|]. revert B. apply place_sound with (e := TRef "Service"); [reflexivity|]. intros s _. apply tool_service_sound.
Qed.
Lemma rating_sound sv r : sound (TRef "VulnerabilityRating") (reify_VulnerabilityRating r) -> sound (TRef "VulnerabilityRating") (reify_VulnerabilityRating (rating_in sv r)).
Proof. struct_in fields_VulnerabilityRating typed_VulnerabilityRating. Qed.
Lemma vulnerability_sound sv v : sound (TRef "Vulnerability") (reify_Vulnerability v) -> sound (TRef "Vulnerability") (reify_Vulnerability (vulnerability_in sv v)).
Proof.
  struct_in fields_Vulnerability typed_Vulnerability.
  all: cbn [vulnerability_in Vulnerability_Tools Vulnerability_Ratings].
  - apply place_sound with (e := TRef "VulnerabilityRating"); [reflexivity|]. intros x _. apply rating_sound.
  - apply present_sound. intros x _. apply tools_sound.
Qed.
Lemma annotator_sound sv a : sound (TRef "Annotator") (reify_Annotator a) -> sound (TRef "Annotator") (reify_Annotator (annotator_in sv a)).
Proof.
  unfold annotator_in. destruct (sv <? v1_6)%Z; [|auto]. struct_in fields_Annotator typed_Annotator. cbn [Annotator_Service]. apply present_sound. intros x _. apply service_sound.
Qed.
Lemma annotation_sound sv a : sound (TRef "Annotation") (reify_Annotation a) -> sound (TRef "Annotation") (reify_Annotation (annotation_in sv a)).
Proof. struct_in fields_Annotation typed_Annotation. cbn [annotation_in Annotation_Annotator]. apply present_sound. intros x _. apply annotator_sound. Qed.
Lemma metadata_sound sv m : sound (TRef "Metadata") (reify_Metadata m) -> sound (TRef "Metadata") (reify_Metadata (metadata_in sv m)).
Proof.
  struct_in fields_Metadata typed_Metadata.
  all: cbn [metadata_in Metadata_Tools Metadata_Component Metadata_Licenses].
  - apply present_sound. intros x _. apply tools_sound.
  - apply present_sound. intros x _. apply component_sound.
  - intros F. eapply since_sound; [|exact F]. apply licenses_sound.
Qed.
Theorem convert_sound sv b : sound (TRef "BOM") (reify_BOM b) -> sound (TRef "BOM") (reify_BOM (convert sv b)).
Proof.
  rewrite convert_spec. struct_in fields_BOM typed_BOM.
  all: cbn [bom_in BOM_Metadata BOM_Components BOM_Services BOM_Vulnerabilities BOM_Annotations BOM_Formulation BOM_Declarations]; try (intros F; apply (since_sound _ _ _ _ _ _ (fun F => F) F)).
  - intros F. eapply since_sound; [|exact F]. apply present_sound. intros x _. apply metadata_sound.
  - apply place_sound with (e := TRef "Component"); [reflexivity|]. intros x _. apply component_sound.
  - intros F. eapply since_sound; [|exact F]. apply place_sound with (e := TRef "Service"); [reflexivity|]. intros x _. apply service_sound.
  - intros F. eapply since_sound; [|exact F]. apply place_sound with (e := TRef "Vulnerability"); [reflexivity|]. intros x _. apply vulnerability_sound.
  - intros F. eapply since_sound; [|exact F]. apply place_sound with (e := TRef "Annotation"); [reflexivity|]. intros x _. apply annotation_sound.
Qed.

Lemma written_wt t v t' v' : written t v t' v' -> wt t v -> wt t' v'.
Proof.
  induction 1 as [t v|t v t1 v1 t2 v2 I X IH]; intros W; [exact W|]. apply IH. clear IH X.
  destruct v as [s|z|b|f|[x|]|[l|]|vs]; cbn [parts_of] in I; try contradiction; cbn [wt] in W.
  - destruct I as [[= <- <-]|[]]. unfold elem_ty. destruct (kind_of t); try contradiction. exact W.
  - apply in_map_iff in I as (x & [= <- <-] & I). unfold elem_ty. destruct (kind_of t); try contradiction. apply list_all_Forall in W. rewrite Forall_forall in W. exact (W _ I).
  - apply choice_parts_sub in I. unfold fields_of in I. destruct (kind_of t); try contradiction. exact (zip_combine wt _ _ W _ I).
Qed.
Theorem versions_encode esc sv b o : json_encode esc b = Ok o ->
  (forall x, written (TRef "BOM") (reify_BOM b) (TRef "ToolsChoice") (reify_ToolsChoice x) -> all_tools x <> []) ->
  forall t v, written (TRef "BOM") (reify_BOM (convert sv (settle b))) t v -> ~ offence t v.
Proof.
  intros E T. assert (S : sound (TRef "BOM") (reify_BOM (convert sv (settle b)))).
  { apply convert_sound. rewrite reify_settle. apply canon_sound; [apply typed_BOM|]. intros t v X [O|(-> & O)]; [exact (nothing_offends esc b o t v E X O)|].
    pose proof (vni_ToolsChoice v (written_wt _ _ _ _ X (typed_BOM b))) as Q. rewrite <- Q in X, O. apply (T _ X). apply no_tools_iff, O. }
  intros t v X O. apply (S t v X). left. exact O.
Qed.
