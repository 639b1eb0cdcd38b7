(** Copying and converting a BOM that can be encoded as XML gives a BOM that can be encoded:
    for C15. *)
From Verif Require Import Base Types Univ TypeTable Wt ReifyBase Reify ReifyFacts Consts GobModel GobProofs Version ConvertModel ConvertSpec ConvertProofs JsonModel JsonProofs JsonHooks XmlModel XmlBack XmlTable XmlSpec XmlProofs XmlPairs XmlStructs XmlRound XmlLossProofs XmlOffence XmlErrors.
Local Open Scope string_scope.

(** ** Types in which nothing can be wrong *)
Definition offence_names : list string :=
  ["ToolsChoice"; "CertificateState"; "CertificateExtension"; "AsserterChoice"; "License"; "Licenses"; "EnvironmentVariables"].
Definition within_names (names : list string) : ty -> bool :=
  fix go t := match t with TPtr t' | TSlice t' => go t' | TRef n => existsb (String.eqb n) names | _ => true end.
Definition def_within (names : list string) (d : tdef) : bool :=
  match d with DStruct fs => forallb (fun f => within_names names (f_ty f)) fs | DAlias t => within_names names t end.
Fixpoint narrow (n : nat) (names : list string) : list string :=
  match n with
  | O => names
  | S n' => narrow n' (filter (fun k => match assoc k defs with Some d => def_within names d | None => false end) names)
  end.
Definition harmless_names : list string :=
  Eval vm_compute in narrow 20 (filter (fun n => negb (existsb (String.eqb n) offence_names)) (map fst defs)).
Definition harmless (t : ty) : bool := within_names harmless_names t.
Lemma harmless_closed : forallb (fun d => if existsb (String.eqb (fst d)) harmless_names then def_within harmless_names (snd d) else true) defs = true.
Proof. vm_compute. reflexivity. Qed.

Lemma harmless_def n d : harmless (TRef n) = true -> assoc n defs = Some d -> def_within harmless_names d = true.
Proof.
  intros H A. apply assoc_in in A. pose proof harmless_closed as C. rewrite forallb_forall in C. specialize (C _ A). cbn [fst snd] in C.
  change (existsb (String.eqb n) harmless_names) with (harmless (TRef n)) in C. rewrite H in C. exact C.
Qed.
Lemma harmless_base t t' : def_within harmless_names (DAlias t) = true -> kind_base t = KPtr t' \/ kind_base t = KSlice t' -> harmless t' = true.
Proof. destruct t; cbn; intros H [E|E]; try discriminate; injection E as <-; exact H. Qed.
Lemma harmless_elem t t' : harmless t = true -> kind_of t = KPtr t' \/ kind_of t = KSlice t' -> harmless t' = true.
Proof.
  destruct t as [| | | | | | |n]; cbn [kind_of kind_base]; intros H [E|E]; try discriminate; try (injection E as <-; exact H).
  all: destruct (assoc n defs) as [[fs|u]|] eqn:A; try discriminate; pose proof (harmless_def _ _ H A) as D; eapply harmless_base; eauto.
Qed.
Lemma harmless_fields t fs : harmless t = true -> kind_of t = KStruct fs -> forallb (fun f => harmless (f_ty f)) fs = true.
Proof.
  destruct t as [| | | | | | |n]; cbn [kind_of kind_base]; intros H E; try discriminate.
  destruct (assoc n defs) as [[fs'|u]|] eqn:A; try discriminate; [|destruct u; discriminate]. injection E as <-. exact (harmless_def _ _ H A).
Qed.
Definition harmless_part (p : ty * val) : Prop := harmless (fst p) = true /\ wt (fst p) (snd p).
Lemma harmless_field_parts fs : forall vs, forallb (fun f => harmless (f_ty f)) fs = true -> zip_all (fun f x => wt (f_ty f) x) vs fs -> Forall harmless_part (field_parts fs vs).
Proof.
  induction fs as [|f fs IH]; intros [|v vs] H W; cbn [zip_all] in W; try contradiction; [constructor|]. cbn [forallb] in H. apply andb_prop in H as (Hf & H). destruct W as (Wf & W).
  rewrite field_parts_cons. apply Forall_app. split; [|apply IH; assumption]. cbn [field_parts]. destruct (xml_info f) as [[[] ? ? ?]|]; constructor; [|constructor]. split; assumption.
Qed.
Lemma part_in t v : harmless t = true -> wt t v -> harmless_part (t, v).
Proof. split; assumption. Qed.
Lemma list_in_wt t v : wt (TPtr (TSlice t)) v -> Forall (wt t) (list_in v).
Proof.
  intros W. destruct (ptr_case _ _ W) as [->|(y & -> & Wy)]; [constructor|]. destruct (slice_case _ _ Wy) as [->|(l & -> & Wl)]; [constructor|exact Wl].
Qed.
Lemma patent_harmless x : wt (TRef "PatentChoice") x -> Forall harmless_part (patent_parts x).
Proof.
  intros W. destruct (wt_struct (TRef "PatentChoice") _ _ eq_refl W) as (vs & -> & Z). unfold fields_PatentChoice in Z. destruct vs as [|a [|b [|c vs]]]; cbn [zip_all f_ty] in Z; try tauto.
  destruct Z as (Wa & Wb & _). cbn [patent_parts]. destruct (ptr_case _ _ Wa) as [->|(y & -> & Wy)]; constructor; try constructor; try reflexivity; assumption.
Qed.
Lemma harmless_methods n m fs vs : harmless (TRef n) = true -> In (n, m) xml_methods -> kind_of (TRef n) = KStruct fs -> zip_all (fun f x => wt (f_ty f) x) vs fs ->
  Forall harmless_part (method_parts m fs (VStruct vs)).
Proof.
  intros H I K Z. unfold xml_methods in I. cbn [In] in I.
  repeat (destruct I as [I|I]; [injection I as <- <-|]); [..|destruct I]; try discriminate H; try discriminate K.
  all: pose proof (harmless_fields _ _ H K) as F; injection K as <-.
  all: try solve [cbn [method_parts]; constructor].
  2-6: destruct vs as [|ref rest]; [constructor|]; cbn [method_parts]; destruct (nonempty ref); [constructor|]; apply harmless_field_parts; assumption.
  - (* MLDatasetChoice *)
    unfold fields_MLDatasetChoice in Z. destruct vs as [|a [|b [|c vs]]]; cbn [zip_all f_ty] in Z; try tauto. destruct Z as (Wa & Wb & _).
    cbn [method_parts]. destruct (nonempty a); constructor; [split; [reflexivity|exact Wb]|constructor].
  - unfold fields_DataClassification in Z. do 7 (destruct vs as [|? vs]; [exfalso; cbn in Z; tauto|]). destruct vs; [|cbn in Z; tauto].
    cbn [zip_all f_ty] in Z. cbn [method_parts]. constructor; [|constructor]. split; [reflexivity|]. cbn [fst snd]. tauto.
  - unfold fields_Definitions in Z. destruct vs as [|a [|b [|c vs]]]; cbn [zip_all f_ty] in Z; try tauto. destruct Z as (Wa & Wb & _). cbn [method_parts]. apply Forall_app. split.
    + apply Forall_map. apply list_in_wt in Wa. revert Wa. apply Forall_impl. intros x W. split; [reflexivity|exact W].
    + apply Forall_flat_map. apply list_in_wt in Wb. revert Wb. apply Forall_impl. intros x W. apply patent_harmless, W.
Qed.
Lemma marshaled t : marshaler t = MNone \/ exists n, t = TRef n /\ In (n, marshaler t) xml_methods.
Proof.
  destruct t as [| | | | | | |n]; auto. destruct (assoc n xml_methods) as [m|] eqn:A; cbn [marshaler]; rewrite A; [|auto]. right. exists n. split; [reflexivity|]. apply assoc_methods, A.
Qed.
Lemma methods_pointers : forallb (fun p => match kind_of (TRef (fst p)) with KPtr _ => false | KSlice _ => negb (harmless (TRef (fst p))) | _ => true end) xml_methods = true.
Proof. vm_compute. reflexivity. Qed.
Lemma harmless_parts t v : harmless t = true -> wt t v -> Forall harmless_part (xparts t v).
Proof.
  intros H W. destruct (marshaled t) as [M|(n & -> & I)].
  - destruct v as [s|z|b|f|[x|]|[l|]|vs]; unfold xparts; rewrite ?M; cbn [method_parts]; try constructor.
    + cbn [wt] in W. unfold elem_ty. destruct (kind_of t) as [| | | |t'| | |] eqn:K; try contradiction. apply part_in; [eapply harmless_elem; eauto|exact W].
    + constructor.
    + cbn [wt] in W. unfold elem_ty. destruct (kind_of t) as [| | | | |t'| |] eqn:K; try contradiction. apply list_all_Forall in W. apply Forall_map. revert W. apply Forall_impl. intros x W. apply part_in; [eapply harmless_elem; eauto|exact W].
    + cbn [wt] in W. unfold fields_of. destruct (kind_of t) as [| | | | | |fs|] eqn:K; try contradiction. apply harmless_field_parts; [eapply harmless_fields; eassumption|exact W].
  - destruct v as [s|z|b|f|[x|]|[l|]|vs].
    all: pose proof methods_pointers as C; rewrite forallb_forall in C; specialize (C _ I); cbn [fst] in C.
    all: try solve [unfold xparts; destruct (marshaler (TRef n)); constructor].
    + cbn [wt] in W. destruct (kind_of (TRef n)); contradiction || discriminate.
    + cbn [wt] in W. destruct (kind_of (TRef n)); try contradiction. rewrite H in C. discriminate.
    + cbn [wt] in W. unfold xparts, fields_of. destruct (kind_of (TRef n)) as [| | | | | |fs|] eqn:K; try contradiction. eapply harmless_methods; eassumption.
Qed.
Lemma harmless_fine t v : harmless t = true -> wt t v -> fine t v.
Proof.
  intros H W t' v' X. revert H W. induction X as [t v|t v t1 v1 t2 v2 I X IH]; intros H W.
  - intros O. destruct O; vm_compute in H; discriminate H.
  - pose proof (harmless_parts _ _ H W) as P. rewrite Forall_forall in P. destruct (P _ I) as (H1 & W1). apply IH; assumption.
Qed.

(** ** The copy *)
Definition copied_part (p : ty * val) : Prop := fine (fst p) (snd p) \/ exists v, snd p = canon v /\ wt (fst p) v /\ fine (fst p) v.
Lemma copied_canon_part t v : wt t v -> fine t v -> copied_part (t, canon v).
Proof. intros W F. right. exists v. auto. Qed.
Lemma copied_harmless t v : harmless t = true -> wt t v -> copied_part (t, canon v).
Proof. intros H W. left. apply harmless_fine; [exact H|apply wt_canon, W]. Qed.
Lemma canon_fields fs : forall vs, zip_all (fun f x => wt (f_ty f) x) vs fs -> Forall fine_part (field_parts fs vs) -> Forall copied_part (field_parts fs (map canon vs)).
Proof.
  induction fs as [|f fs IH]; intros [|v vs] W F; cbn [zip_all] in W; try contradiction; [constructor|]. destruct W as (Wf & W).
  cbn [map]. rewrite field_parts_cons in F |- *. apply Forall_app in F as (Ff & F). apply Forall_app. split; [|apply IH; assumption].
  cbn [field_parts] in Ff |- *. destruct (xml_info f) as [[[] ? ? ?]|]; constructor; [|constructor]. apply one_part in Ff. apply copied_canon_part; assumption.
Qed.
Lemma is_some_canon t v : wt (TPtr t) v -> is_some (canon v) -> is_some v.
Proof. intros W (x & E). destruct (ptr_case _ _ W) as [->|(y & -> & _)]; [discriminate|]. eexists. reflexivity. Qed.
Lemma canon_ptr t v : wt (TPtr t) v -> canon v = VPtr None \/ exists x, v = VPtr (Some x) /\ wt t x /\ canon v = VPtr (Some (canon x)).
Proof.
  intros W. destruct (ptr_case _ _ W) as [->|(x & -> & Wx)]; [auto|]. cbn [canon]. destruct (van x); [auto|]. right. exists x. auto.
Qed.
Lemma canon_str v : wt TStr v -> canon v = v.
Proof. intros W. destruct (str_case _ W) as (s & ->). reflexivity. Qed.
Lemma nonempty_canon v : wt TStr v -> nonempty (canon v) = nonempty v.
Proof. intros W. rewrite canon_str by exact W. reflexivity. Qed.

Ltac split_struct vs Z :=
  lazymatch type of Z with zip_all _ _ ?fs => unfold fs in Z end;
  repeat (let v := fresh "v" in destruct vs as [|v vs]; [exfalso; cbn in Z; tauto|]; cbn [zip_all f_ty] in Z; let W := fresh "W" in destruct Z as (W & Z); cbv beta in W; cbn [f_ty] in W);
  destruct vs; [|exfalso; exact Z]; clear Z.
Lemma detail_harmless d : wt (TRef "LicenseExpressionDetail") d -> Forall fine_part (detail_parts d).
Proof.
  intros W. destruct (wt_struct (TRef "LicenseExpressionDetail") _ _ eq_refl W) as (vs & -> & Z). split_struct vs Z. cbn [detail_parts]. apply one_part. apply harmless_fine; [reflexivity|assumption].
Qed.
Lemma expression_parts e d rest : wt (TPtr (TSlice (TRef "LicenseExpressionDetail"))) d -> Forall fine_part (license_choice_parts (VStruct (VPtr None :: e :: d :: rest))).
Proof.
  intros W. replace (license_choice_parts _) with (if nonempty e then flat_map detail_parts (list_in d) else []) by
    (destruct d as [| | | |[[| | | | |[l|]|]|]| |]; cbn [license_choice_parts list_in flat_map]; try reflexivity; destruct (nonempty e); reflexivity).
  destruct (nonempty e); [|constructor]. apply flat_parts. apply list_in_wt in W. revert W. apply Forall_impl. apply detail_harmless.
Qed.
Lemma fine_copied l : Forall fine_part l -> Forall copied_part l.
Proof. apply Forall_impl. intros p F. left. exact F. Qed.
Lemma license_choice_canon x : wt (TRef "LicenseChoice") x -> Forall fine_part (license_choice_parts x) -> Forall copied_part (license_choice_parts (canon x)).
Proof.
  intros W F. destruct (wt_struct (TRef "LicenseChoice") _ _ eq_refl W) as (vs & -> & Z). split_struct vs Z. cbn [canon map].
  destruct (canon_ptr _ _ W0) as [->|(y & -> & Wy & ->)].
  - apply fine_copied, expression_parts, wt_canon. assumption.
  - cbn [license_choice_parts] in F |- *. apply one_part in F. constructor; [|constructor]. apply copied_canon_part; assumption.
Qed.
Lemma environment_canon x : wt (TRef "EnvironmentVariableChoice") x -> Forall copied_part (environment_parts (canon x)).
Proof.
  intros W. destruct (wt_struct (TRef "EnvironmentVariableChoice") _ _ eq_refl W) as (vs & -> & Z). split_struct vs Z. cbn [canon map environment_parts].
  constructor; [|constructor]. apply copied_harmless; [reflexivity|assumption].
Qed.
Lemma canon_method n m fs vs : harmless (TRef n) = false -> In (n, m) xml_methods -> kind_of (TRef n) = KStruct fs -> zip_all (fun f x => wt (f_ty f) x) vs fs ->
  Forall fine_part (method_parts m fs (VStruct vs)) -> ~ xoffence (TRef n) (VStruct vs) -> Forall copied_part (method_parts m fs (VStruct (map canon vs))) /\ ~ xoffence (TRef n) (VStruct (map canon vs)).
Proof.
  intros H I K Z F O. unfold xml_methods in I. cbn [In] in I.
  repeat (destruct I as [I|I]; [injection I as <- <-|]); [..|destruct I]; try discriminate H; try discriminate K.
  all: injection K as <-.
  - split; [apply canon_fields; assumption|]. intros Q. apply O. clear F O H. split_struct vs Z. cbn [map] in Q.
    rewrite (canon_str v0), (canon_str v1) in Q by assumption. inversion Q; subst; constructor; assumption.
  - split_struct vs Z. split; [constructor|]. intros Q. apply O. cbn [map] in Q. inversion Q; subst. constructor; eapply is_some_canon; eassumption.
  - split_struct vs Z. split; [constructor|]. intros Q. apply O. cbn [map] in Q. inversion Q; subst. constructor; eapply is_some_canon; eassumption.
  - split_struct vs Z. split; [|intros Q; apply O; cbn [map] in Q; inversion Q; subst; constructor; eapply is_some_canon; eassumption].
    cbn [map method_parts]. destruct (nonnil (canon v)); (constructor; [apply copied_harmless; [reflexivity|assumption]|constructor]).
  - split_struct vs Z. split.
    + cbn [map method_parts] in *. destruct (nonnil (canon v)) eqn:Ec; [constructor; [apply copied_harmless; [reflexivity|assumption]|constructor]|]. destruct (nonnil v) eqn:Ev.
      * apply (some_iff _ _ W) in Ev. assert (N0 : v0 = VPtr None). { destruct (ptr_case _ _ W0) as [->|(y & -> & _)]; [reflexivity|]. exfalso. apply O. constructor; [exact Ev|]. left. eexists. reflexivity. }
        assert (N1 : v1 = VPtr None). { destruct (ptr_case _ _ W1) as [->|(y & -> & _)]; [reflexivity|]. exfalso. apply O. constructor; [exact Ev|]. right. eexists. reflexivity. }
        subst v0 v1. cbn [canon]. constructor; [left; apply nil_fine|]. constructor; [left; apply nil_fine|constructor].
      * rewrite !Forall_cons_iff in F. destruct F as (F0 & F1 & _). constructor; [|constructor; [|constructor]]; apply copied_canon_part; assumption.
    + intros Q. apply O. cbn [map] in Q. inversion Q as [? ? ? A B| | | | | | |]; subst. constructor; [eapply is_some_canon; eassumption|]. destruct B as [B|B]; [left|right]; eapply is_some_canon; eassumption.
  - split_struct vs Z. split; [|intros Q; inversion Q]. cbn [map method_parts] in *. apply Forall_app in F as (_ & F). rewrite !Forall_cons_iff in F. destruct F as (_ & _ & F & _). apply Forall_app. split.
    + apply (wt_canon v) in W. destruct (ptr_case _ _ W) as [->|(y & -> & Wy)]; [constructor|]. destruct (wt_struct (TRef "EvidenceIdentityChoice") _ _ eq_refl Wy) as (us & -> & Zu). split_struct us Zu.
      cbn [identity_parts]. destruct (nonnil v5); (constructor; [left; apply harmless_fine; [reflexivity|assumption]|constructor]).
    + constructor; [apply copied_harmless; [reflexivity|assumption]|]. constructor; [apply copied_harmless; [reflexivity|assumption]|].
      constructor; [apply copied_canon_part; assumption|]. constructor; [apply copied_harmless; [reflexivity|assumption]|constructor].
Qed.
Lemma both_set_canon t x : t = TRef "LicenseChoice" \/ t = TRef "EnvironmentVariableChoice" -> wt t x -> both_set (canon x) -> both_set x.
Proof.
  intros [->| ->] W.
  - destruct (wt_struct (TRef "LicenseChoice") _ _ eq_refl W) as (vs & -> & Z). split_struct vs Z. cbn [canon map both_set]. rewrite nonempty_canon by assumption. intros (A & B). split; [eapply is_some_canon; eassumption|exact B].
  - destruct (wt_struct (TRef "EnvironmentVariableChoice") _ _ eq_refl W) as (vs & -> & Z). split_struct vs Z. cbn [canon map both_set]. rewrite nonempty_canon by assumption. intros (A & B). split; [eapply is_some_canon; eassumption|exact B].
Qed.
Lemma canon_list n m l : In (n, m) xml_methods -> wt (TRef n) (VSlice (Some l)) -> Forall fine_part (method_parts m [] (VSlice (Some l))) -> ~ xoffence (TRef n) (VSlice (Some l)) ->
  Forall copied_part (method_parts m [] (VSlice (Some (map canon l)))) /\ ~ xoffence (TRef n) (VSlice (Some (map canon l))).
Proof.
  intros I W F O. unfold xml_methods in I. cbn [In] in I.
  repeat (destruct I as [I|I]; [injection I as <- <-|]); [..|destruct I]; try (exfalso; exact W).
  all: match type of O with ~ xoffence ?t _ => let t' := eval vm_compute in (elem_ty t) in
    assert (Ws : Forall (wt t') l) by (apply list_all_Forall, W); assert (Wc : Forall (wt t') (map canon l)) by (apply Forall_map; revert Ws; apply Forall_impl; intros x; apply wt_canon) end.
  - rewrite environment_offence in O |- * by assumption. split.
    + cbn [method_parts]. apply Forall_flat_map, Forall_map. revert Ws. apply Forall_impl. apply environment_canon.
    + intros (x & I & Q). apply in_map_iff in I as (y & <- & I). apply O. exists y. split; [exact I|]. rewrite Forall_forall in Ws. eapply both_set_canon; [right; reflexivity|apply Ws, I|exact Q].
  - rewrite choice_offence in O |- * by assumption. split.
    + cbn [method_parts] in F |- *. apply flat_parts in F. apply Forall_flat_map, Forall_map. rewrite Forall_forall in *. intros x I. apply license_choice_canon; [apply Ws, I|apply F, I].
    + intros (x & I & Q). apply in_map_iff in I as (y & <- & I). apply O. exists y. split; [exact I|]. rewrite Forall_forall in Ws. eapply both_set_canon; [left; reflexivity|apply Ws, I|exact Q].
Qed.
Lemma canon_step t v : wt t v -> fine t v -> ~ xoffence t (canon v) /\ Forall copied_part (xparts t (canon v)).
Proof.
  intros W F. apply fine_step in F as (O & F). destruct (marshaled t) as [M|(n & -> & I)].
  - assert (N : forall u, ~ xoffence t u) by (intros u Q; destruct Q; discriminate M). split; [apply N|].
    destruct v as [s|z|b|f|[x|]|[l|]|vs]; unfold xparts in F |- *; cbn [canon]; rewrite ?M in *; cbn [method_parts] in *; try solve [constructor].
    + cbn [wt] in W. unfold elem_ty in *. destruct (kind_of t) as [| | | |t'| | |] eqn:K; try contradiction. apply one_part in F. destruct (van x); constructor; [|constructor]. apply copied_canon_part; assumption.
    + cbn [wt] in W. unfold elem_ty in *. destruct (kind_of t) as [| | | | |t'| |] eqn:K; try contradiction. apply list_all_Forall in W. apply map_parts in F.
      assert (Q : Forall copied_part (map (fun x => (t', x)) (map canon l))) by (rewrite !Forall_map; rewrite Forall_forall in *; intros x I; apply copied_canon_part; auto).
      destruct l; [constructor|exact Q].
    + cbn [wt] in W. unfold fields_of in *. destruct (kind_of t) as [| | | | | |fs|] eqn:K; try contradiction. apply canon_fields; assumption.
  - destruct (harmless (TRef n)) eqn:H.
    + apply wt_canon in W. pose proof (harmless_fine _ _ H W) as Q. apply fine_step in Q as (Q & P). split; [exact Q|]. apply fine_copied, P.
    + destruct v as [s|z|b|f|[x|]|[l|]|vs].
      all: pose proof methods_pointers as C; rewrite forallb_forall in C; specialize (C _ I); cbn [fst] in C.
      1-4: split; [intros Q; inversion Q|]; unfold xparts; destruct (marshaler (TRef n)); constructor.
      * cbn [wt] in W. destruct (kind_of (TRef n)); contradiction || discriminate.
      * split; [exact O|constructor].
      * destruct l as [|x l]; [split; [intros Q; inversion Q|unfold xparts; cbn [canon]; destruct (marshaler (TRef n)); constructor]|].
        destruct (canon_list n (marshaler (TRef n)) (x :: l) I W) as (P & Q); [|exact O|].
        -- unfold xparts in F. destruct (marshaler (TRef n)) eqn:M; try exact F. constructor.
        -- split; [exact Q|]. change (canon (VSlice (Some (x :: l)))) with (VSlice (Some (map canon (x :: l)))). unfold xparts. destruct (marshaler (TRef n)) eqn:M; try exact P.
           exfalso. clear - I. unfold xml_methods in I. cbn [In] in I. repeat (destruct I as [I|I]; [discriminate I|]). exact I.
      * split; [intros Q; inversion Q|]. unfold xparts. cbn [canon]. destruct (marshaler (TRef n)); constructor.
      * unfold xparts, fields_of in *. cbn [wt] in W. destruct (kind_of (TRef n)) as [| | | | | |fs|] eqn:K; try contradiction. cbn [canon].
        destruct (canon_method n (marshaler (TRef n)) fs vs H I K W F O). split; assumption.
Qed.
Theorem canon_fine t v : wt t v -> fine t v -> fine t (canon v).
Proof.
  intros W F t' v' X. assert (P : copied_part (t, canon v)) by (apply copied_canon_part; assumption). revert P. generalize (canon v) X. clear W F X v. intros v X.
  induction X as [t v|t v t1 v1 t2 v2 I X IH]; intros [P|(u & E & W & F)]; cbn [fst snd] in *.
  - apply P, xwritten_here.
  - subst v. apply (canon_step _ _ W F).
  - apply IH. left. apply fine_step in P as (_ & P). rewrite Forall_forall in P. exact (P _ I).
  - apply IH. subst v. destruct (canon_step _ _ W F) as (_ & P). rewrite Forall_forall in P. exact (P _ I).
Qed.

(** ** The conversion *)
Lemma fine_vptr {A} t (r : A -> val) p : fine (TPtr t) (vptr r p) <-> match p with Some x => fine t (r x) | None => True end.
Proof.
  destruct p as [x|]; unfold vptr; cbn [option_map]; [|split; [trivial|intros _; apply nil_fine]]. rewrite fine_step. change (xparts (TPtr t) (VPtr (Some (r x)))) with [(t, r x)]. rewrite one_part.
  split; [tauto|]. intros F. split; [intros O; inversion O|exact F].
Qed.
Lemma fine_vslice {A} t (r : A -> val) s : fine (TSlice t) (vslice r s) <-> match s with Some l => Forall (fun x => fine t (r x)) l | None => True end.
Proof.
  rewrite fine_step. destruct s as [l|]; unfold vslice; cbn [option_map].
  - change (xparts (TSlice t) (VSlice (Some (map r l)))) with (map (fun x => (t, x)) (map r l)). rewrite map_parts, Forall_map. split; [tauto|]. intros F. split; [intros O; inversion O|exact F].
  - split; [trivial|]. intros _. split; [intros O; inversion O|constructor].
Qed.
Lemma fine_members {A} t (r : A -> val) p : fine (TPtr (TSlice t)) (vptr (vslice r) p) <-> Forall (fun x => fine t (r x)) (ConvertSpec.members p).
Proof. rewrite fine_vptr. destruct p as [s|]; [|split; [constructor|trivial]]. rewrite fine_vslice. destruct s; cbn [ConvertSpec.members]; [reflexivity|]. split; [constructor|trivial]. Qed.
Lemma present_fine {A} t (r : A -> val) f p : (forall x, p = Some x -> fine t (r x) -> fine t (r (f x))) -> fine (TPtr t) (vptr r p) -> fine (TPtr t) (vptr r (if_present f p)).
Proof. rewrite !fine_vptr. destruct p as [x|]; cbn; auto. Qed.
Lemma place_fine {A} t (r : A -> val) f p : (forall x, In x (ConvertSpec.members p) -> fine t (r x) -> fine t (r (f x))) -> fine (TPtr (TSlice t)) (vptr (vslice r) p) -> fine (TPtr (TSlice t)) (vptr (vslice r) (in_place f p)).
Proof.
  rewrite !fine_members. intros H. destruct p as [[l|]|]; cbn [in_place ConvertSpec.members] in *; try (intros _; constructor). rewrite Forall_map, !Forall_forall. auto.
Qed.
Lemma since_fine {A} v sv t (r : A -> val) p q : (fine (TPtr t) (vptr r q) -> fine (TPtr t) (vptr r p)) -> fine (TPtr t) (vptr r q) -> fine (TPtr t) (vptr r (ptr_since v sv p)).
Proof. intros H F. unfold ptr_since, since. destruct (v <=? sv)%Z; [auto|]. apply nil_fine. Qed.

Fixpoint kept (fs : list field) (vs vs' : list val) : Prop :=
  match fs, vs, vs' with
  | f :: fs, v :: vs, v' :: vs' => (harmless (f_ty f) = true \/ (fine (f_ty f) v -> fine (f_ty f) v')) /\ kept fs vs vs'
  | _, _, _ => True
  end.
Lemma kept_parts fs : forall vs vs', kept fs vs vs' -> zip_all (fun f x => wt (f_ty f) x) vs fs -> zip_all (fun f x => wt (f_ty f) x) vs' fs -> Forall fine_part (field_parts fs vs) -> Forall fine_part (field_parts fs vs').
Proof.
  induction fs as [|f fs IH]; intros [|v vs] [|v' vs'] K W W' F; cbn [zip_all] in W, W'; try contradiction; [constructor|]. destruct K as (Kf & K). destruct W as (Wf & W). destruct W' as (Wf' & W').
  rewrite field_parts_cons in F |- *. apply Forall_app in F as (Ff & F). apply Forall_app. split; [|eapply IH; eassumption].
  cbn [field_parts] in Ff |- *. destruct (xml_info f) as [[[] ? ? ?]|]; constructor; [|constructor]. apply one_part in Ff. destruct Kf as [H|Kf]; [apply harmless_fine; assumption|apply Kf, Ff].
Qed.
Lemma struct_fine n fs v v' vs vs' : v = VStruct vs -> v' = VStruct vs' -> kind_of (TRef n) = KStruct fs -> marshaler (TRef n) = MNone -> wt (TRef n) v -> wt (TRef n) v' -> kept fs vs vs' ->
  fine (TRef n) v -> fine (TRef n) v'.
Proof.
  intros -> -> K M W W' H F. apply fine_step in F as (_ & F). apply fine_step. split; [intros O; destruct O; discriminate|].
  unfold xparts, fields_of in *. rewrite M, K in *. cbn [wt] in W, W'. rewrite K in W, W'. cbn [method_parts] in *. eapply kept_parts; eassumption.
Qed.
Ltac keep := lazymatch goal with |- _ /\ _ => split; [first [left; reflexivity|right; try (intros F; exact F)]|keep] | |- True => exact I | _ => idtac end.
Ltac struct_in fs typed := eapply struct_fine; [reflexivity|reflexivity|reflexivity|reflexivity|apply typed|apply typed|unfold fs; cbn [kept f_ty]; keep].
Ltac struct_by fs typed eqn := eapply struct_fine; [apply eqn|apply eqn|reflexivity|reflexivity|apply typed|apply typed|unfold fs; cbn [kept f_ty]; keep].

Definition good_choice (c : LicenseChoice) : Prop := ~ both_set (reify_LicenseChoice c) /\ Forall fine_part (license_choice_parts (reify_LicenseChoice c)).
Lemma fine_licenses s : fine (TRef "Licenses") (vslice reify_LicenseChoice s) <-> match s with Some l => Forall good_choice l | None => True end.
Proof.
  rewrite fine_step. destruct s as [l|]; unfold vslice; cbn [option_map].
  - rewrite choice_offence by (apply Forall_map, Forall_forall; intros; apply typed_LicenseChoice).
    change (xparts (TRef "Licenses") (VSlice (Some (map reify_LicenseChoice l)))) with (flat_map license_choice_parts (map reify_LicenseChoice l)). rewrite flat_parts, Forall_map. rewrite !Forall_forall. unfold good_choice. split.
    + intros (N & F) c I. split; [intros B; apply N; exists (reify_LicenseChoice c); split; [apply in_map, I|exact B]|apply F, I].
    + intros G. split; [|intros c I; apply G, I]. intros (x & I & B). apply in_map_iff in I as (c & <- & I). exact (proj1 (G c I) B).
  - split; [trivial|]. intros _. split; [intros O; inversion O|constructor].
Qed.
Lemma license_fine sv l : fine (TRef "License") (reify_License l) -> fine (TRef "License") (reify_License (license_in sv l)).
Proof.
  intros F. apply fine_step in F as (O & _). apply fine_step. split.
  - intros Q. apply O. unfold reify_License in *. cbn [license_in License_ID License_Name] in *. inversion Q; subst; constructor; assumption.
  - pose proof (typed_License (license_in sv l)) as W. unfold reify_License in *. change (xparts (TRef "License") (VStruct ?vs)) with (field_parts fields_License vs).
    unfold xparts. change (marshaler (TRef "License")) with MLicense. cbn [method_parts].
    match goal with |- Forall _ (field_parts ?fs ?vs) => change fs with fields_License; assert (H : Forall harmless_part (field_parts fields_License vs)) by (apply harmless_field_parts; [reflexivity|exact W]) end.
    revert H. apply Forall_impl. intros p (Hp & Wp). apply harmless_fine; assumption.
Qed.
Lemma choice_good sv c : good_choice c -> good_choice (license_choice_in sv c).
Proof.
  unfold good_choice, reify_LicenseChoice. cbn [license_choice_in LicenseChoice_License LicenseChoice_Expression LicenseChoice_ExpressionDetails both_set]. intros (B & F). split.
  - intros (A & E). apply B. split.
    + destruct (LicenseChoice_License c); [eexists; reflexivity|]. destruct A as (x & A). discriminate A.
    + unfold str_since, since in E. destruct (v1_1 <=? sv)%Z; [exact E|discriminate].
  - destruct (LicenseChoice_License c) as [l|].
    + unfold vptr in *. cbn [if_present option_map license_choice_parts] in *. apply one_part in F. apply one_part, license_fine, F.
    + unfold vptr at 1. cbn [if_present option_map]. apply expression_parts. apply (typed_ptr _ _ (typed_slice _ _ typed_LicenseExpressionDetail)).
Qed.
Lemma licenses_fine sv p : fine (TPtr (TRef "Licenses")) (vptr (vslice reify_LicenseChoice) p) -> fine (TPtr (TRef "Licenses")) (vptr (vslice reify_LicenseChoice) (licenses_in sv p)).
Proof.
  rewrite !fine_vptr. unfold licenses_in. destruct p as [s|]; [|destruct (sv <? v1_1)%Z; trivial]. rewrite fine_licenses. intros F.
  assert (G : match (if (sv <? v1_1)%Z then keep named_license (Some s) else Some s) with Some (Some l) => Forall good_choice l | _ => True end).
  { destruct (sv <? v1_1)%Z; [|destruct s; exact F]. destruct s as [l|]; [|exact I]. cbn [keep]. unfold non_empty. destruct (filter named_license l) eqn:E; [exact I|]. rewrite <- E.
    rewrite Forall_forall in *. intros c J. apply filter_In in J as (J & _). apply F, J. }
  destruct (if (sv <? v1_1)%Z then _ else _) as [[l|]|]; cbn [in_place]; rewrite ?fine_licenses; trivial. apply Forall_map. revert G. apply Forall_impl. intros c. apply choice_good.
Qed.
Lemma fine_evidence e : fine (TRef "Evidence") (reify_Evidence e) <-> fine (TPtr (TRef "Licenses")) (vptr (vslice reify_LicenseChoice) (Evidence_Licenses e)).
Proof.
  rewrite fine_step. pose proof (typed_Evidence e) as W. unfold reify_Evidence in *. unfold xparts. change (marshaler (TRef "Evidence")) with MEvidence. cbn [method_parts].
  cbn [wt] in W. rewrite kind_Evidence in W. unfold fields_Evidence in W. cbn [zip_all f_ty] in W. destruct W as (W0 & W1 & W2 & W3 & W4 & _). rewrite Forall_app, !Forall_cons_iff. unfold fine_part at 2 3 4 5. cbn [fst snd].
  split; [tauto|]. intros F. split; [intros O; inversion O|]. split.
  - destruct (ptr_case _ _ W0) as [->|(y & -> & Wy)]; [constructor|]. destruct (wt_struct (TRef "EvidenceIdentityChoice") _ _ eq_refl Wy) as (us & -> & Zu). split_struct us Zu.
    cbn [identity_parts]. destruct (nonnil v0); (constructor; [apply harmless_fine; [reflexivity|assumption]|constructor]).
  - split; [apply harmless_fine; [reflexivity|assumption]|]. split; [apply harmless_fine; [reflexivity|assumption]|]. split; [exact F|]. split; [apply harmless_fine; [reflexivity|assumption]|constructor].
Qed.
Lemma evidence_fine sv e : fine (TRef "Evidence") (reify_Evidence e) -> fine (TRef "Evidence") (reify_Evidence (evidence_in sv e)).
Proof. rewrite !fine_evidence. cbn [evidence_in Evidence_Licenses]. destruct (sv <? v1_5)%Z; [auto|apply licenses_fine]. Qed.
Lemma certificate_fine sv c : fine (TRef "CertificateProperties") (reify_CertificateProperties c) -> fine (TRef "CertificateProperties") (reify_CertificateProperties (certificate_in sv c)).
Proof.
  struct_in fields_CertificateProperties typed_CertificateProperties.
  all: cbn [certificate_in CertificateProperties_CertificateState CertificateProperties_CertificateExtensions]; intros F; apply (since_fine _ _ _ _ _ _ (fun F => F) F).
Qed.
Lemma crypto_fine sv c : fine (TRef "CryptoProperties") (reify_CryptoProperties c) -> fine (TRef "CryptoProperties") (reify_CryptoProperties (crypto_in sv c)).
Proof.
  struct_in fields_CryptoProperties typed_CryptoProperties.
  cbn [crypto_in CryptoProperties_CertificateProperties]. apply present_fine. intros x _. apply certificate_fine.
Qed.
Lemma pedigree_fine sv f p : (forall x, In x (ConvertSpec.members (Pedigree_Ancestors p)) \/ In x (ConvertSpec.members (Pedigree_Descendants p)) \/ In x (ConvertSpec.members (Pedigree_Variants p)) ->
    fine (TRef "Component") (reify_Component x) -> fine (TRef "Component") (reify_Component (f x))) ->
  fine (TRef "Pedigree") (reify_Pedigree p) -> fine (TRef "Pedigree") (reify_Pedigree (pedigree_in sv f p)).
Proof.
  intros H. struct_in fields_Pedigree typed_Pedigree.
  all: cbn [pedigree_in Pedigree_Ancestors Pedigree_Descendants Pedigree_Variants]; apply place_fine; intros x I; apply H; auto.
Qed.
Lemma component_fine sv c : fine (TRef "Component") (reify_Component c) -> fine (TRef "Component") (reify_Component (component_in sv c)).
Proof.
  induction c as [c IH] using component_induction. rewrite component_in_fix.
  struct_by fields_Component typed_Component reify_Component_fix.
  all: unfold component_in_; cbn [Component_Licenses Component_Pedigree Component_Components Component_Evidence Component_CryptoProperties Component_PatentAssertions].
  - apply licenses_fine.
  - intros F. eapply since_fine; [|exact F]. apply present_fine. intros p E. apply pedigree_fine. intros x I. apply IH. right. exists p. auto.
  - apply place_fine. intros x I. apply IH. left. exact I.
  - intros F. eapply since_fine; [|exact F]. apply present_fine. intros e _. apply evidence_fine.
  - intros F. eapply since_fine; [|exact F]. apply present_fine. intros e _. apply crypto_fine.
  - intros F. apply (since_fine _ _ _ _ _ _ (fun F => F) F).
Qed.
Lemma service_fine sv s : fine (TRef "Service") (reify_Service s) -> fine (TRef "Service") (reify_Service (service_in sv s)).
Proof.
  induction s as [s IH] using service_induction. rewrite service_in_fix.
  struct_by fields_Service typed_Service reify_Service_fix.
  all: unfold service_in_; cbn [Service_Services Service_PatentAssertions].
  - apply place_fine. intros x I. apply IH. exact I.
  - intros F. apply (since_fine _ _ _ _ _ _ (fun F => F) F).
Qed.
Lemma tool_service_fine sv s : fine (TRef "Service") (reify_Service s) -> fine (TRef "Service") (reify_Service (tool_service_in sv s)).
Proof. unfold tool_service_in. struct_by fields_Service typed_Service reify_Service_fix. Qed.

Lemma fine_tools t : fine (TRef "ToolsChoice") (reify_ToolsChoice t) <->
  match ToolsChoice_Tools t with
  | Some _ => ToolsChoice_Components t = None /\ ToolsChoice_Services t = None
  | None => fine (TPtr (TSlice (TRef "Component"))) (vptr (vslice reify_Component) (ToolsChoice_Components t)) /\ fine (TPtr (TSlice (TRef "Service"))) (vptr (vslice reify_Service) (ToolsChoice_Services t))
  end.
Proof.
  rewrite fine_step. unfold reify_ToolsChoice, xparts. change (marshaler (TRef "ToolsChoice")) with MTools. destruct t as [[tools|] comps servs]; cbn [ToolsChoice_Tools ToolsChoice_Components ToolsChoice_Services].
  - change (method_parts MTools _ _) with [(TPtr (TSlice (TRef "Tool")), vptr (vslice reify_Tool) (Some tools))]. rewrite one_part. split.
    + intros (O & _). destruct comps, servs; auto; exfalso; apply O; constructor; try (eexists; reflexivity); ((left; eexists; reflexivity) || (right; eexists; reflexivity)).
    + intros (-> & ->). split; [intros O; inversion O as [? ? ? A [(x & B)|(x & B)]| | | | | | |]; discriminate B|].
      apply harmless_fine; [reflexivity|]. apply (typed_ptr _ _ (typed_slice _ _ typed_Tool)).
  - change (method_parts MTools _ _) with [(TPtr (TSlice (TRef "Component")), vptr (vslice reify_Component) comps); (TPtr (TSlice (TRef "Service")), vptr (vslice reify_Service) servs)].
    rewrite !Forall_cons_iff, no_part. unfold fine_part. cbn [fst snd]. split; [tauto|]. intros (A & B). split; [|auto]. intros O. inversion O as [? ? ? (x & C) _| | | | | | |]. discriminate C.
Qed.
Lemma tools_fine sv t : fine (TRef "ToolsChoice") (reify_ToolsChoice t) -> fine (TRef "ToolsChoice") (reify_ToolsChoice (tools_in sv t)).
Proof.
  unfold tools_in. destruct (sv <? v1_5)%Z.
  - intros _. apply fine_tools. cbn [ToolsChoice_Tools ToolsChoice_Components ToolsChoice_Services].
    match goal with |- match ?x with _ => _ end => destruct x end; [auto|]. split; apply nil_fine.
  - rewrite !fine_tools. cbn [ToolsChoice_Tools ToolsChoice_Components ToolsChoice_Services]. destruct (ToolsChoice_Tools t) as [tools|]; cbn [in_place].
    + intros (-> & ->). destruct tools; auto.
    + intros (A & B). split; [exact A|]. revert B. apply place_fine. intros s _. apply tool_service_fine.
Qed.
Lemma vulnerability_fine sv v : fine (TRef "Vulnerability") (reify_Vulnerability v) -> fine (TRef "Vulnerability") (reify_Vulnerability (vulnerability_in sv v)).
Proof.
  struct_in fields_Vulnerability typed_Vulnerability. cbn [vulnerability_in Vulnerability_Tools]. apply present_fine. intros x _. apply tools_fine.
Qed.
Lemma annotator_fine sv a : fine (TRef "Annotator") (reify_Annotator a) -> fine (TRef "Annotator") (reify_Annotator (annotator_in sv a)).
Proof.
  unfold annotator_in. destruct (sv <? v1_6)%Z; [|auto]. struct_in fields_Annotator typed_Annotator. cbn [Annotator_Service]. apply present_fine. intros x _. apply service_fine.
Qed.
Lemma annotation_fine sv a : fine (TRef "Annotation") (reify_Annotation a) -> fine (TRef "Annotation") (reify_Annotation (annotation_in sv a)).
Proof.
  struct_in fields_Annotation typed_Annotation. cbn [annotation_in Annotation_Annotator]. apply present_fine. intros x _. apply annotator_fine.
Qed.
Lemma metadata_fine sv m : fine (TRef "Metadata") (reify_Metadata m) -> fine (TRef "Metadata") (reify_Metadata (metadata_in sv m)).
Proof.
  struct_in fields_Metadata typed_Metadata.
  all: cbn [metadata_in Metadata_Tools Metadata_Component Metadata_Licenses].
  - apply present_fine. intros x _. apply tools_fine.
  - apply present_fine. intros x _. apply component_fine.
  - intros F. eapply since_fine; [|exact F]. apply licenses_fine.
Qed.
Theorem convert_fine sv b : fine (TRef "BOM") (reify_BOM b) -> fine (TRef "BOM") (reify_BOM (convert sv b)).
Proof.
  rewrite convert_spec. struct_in fields_BOM typed_BOM.
  all: cbn [bom_in BOM_Metadata BOM_Components BOM_Services BOM_Vulnerabilities BOM_Annotations BOM_Formulation BOM_Declarations]; try (intros F; apply (since_fine _ _ _ _ _ _ (fun F => F) F)).
  - intros F. eapply since_fine; [|exact F]. apply present_fine. intros x _. apply metadata_fine.
  - apply place_fine. intros x _. apply component_fine.
  - intros F. eapply since_fine; [|exact F]. apply place_fine. intros x _. apply service_fine.
  - intros F. eapply since_fine; [|exact F]. apply place_fine. intros x _. apply vulnerability_fine.
  - intros F. eapply since_fine; [|exact F]. apply place_fine. intros x _. apply annotation_fine.
Qed.
Theorem versions_encode sv b : okr (bom_to_xml b) -> okr (bom_to_xml (convert sv (settle b))).
Proof. rewrite !xml_fails_iff. intros F. apply convert_fine. rewrite reify_settle. apply canon_fine; [apply typed_BOM|exact F]. Qed.
