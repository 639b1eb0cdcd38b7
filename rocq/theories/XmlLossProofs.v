(** [xml_lossless] is exactly the condition under which nothing is lost. *)
From Verif Require Import Base Types Univ TypeTable Wt ReifyBase Reify ReifyFacts Consts Version JsonModel JsonProofs JsonHooks XmlModel XmlBack XmlTable XmlProofs XmlRound XmlNeat XmlLossless.
From Coq Require Import Lia.
Local Open Scope string_scope.

(** ** Zero fields *)
Definition struct_fields : list field := flat_map (fun d => match snd d with DStruct fs => fs | DAlias _ => [] end) defs.
Definition zero_back (omit : bool) (t : ty) : val := default t (bback (back_of (zero_of t)) t omit).
Lemma zeros_back omit : map (fun f => zero_back omit (f_ty f)) struct_fields = map (fun f => zero_of (f_ty f)) struct_fields.
Proof. destruct omit; vm_compute; reflexivity. Qed.
Lemma map_at {A B} (f g : A -> B) l x : map f l = map g l -> In x l -> f x = g x.
Proof. induction l as [|y l IH]; intros E I; [contradiction|]. cbn in E. injection E as E1 E2. destruct I as [<-|I]; auto. Qed.
Lemma zero_stays t fs f omit : kind_of t = KStruct fs -> In f fs -> default (f_ty f) (bback (back_of (zero_of (f_ty f))) (f_ty f) omit) = zero_of (f_ty f).
Proof.
  intros K I. apply kind_struct_in in K as (n & -> & Id). apply (map_at (fun f => zero_back omit (f_ty f)) (fun f => zero_of (f_ty f)) struct_fields f (zeros_back omit)).
  unfold struct_fields. apply in_flat_map. exists (n, DStruct fs). auto.
Qed.

(** ** The relation *)
Definition same (v : val) : Prop := forall t omit, wt t v -> (bback (back_of v) t omit = Some v <-> keeps (keeps_of v) t omit).
Lemma back_val v : bval (back_of v) = v.
Proof. destruct v; reflexivity. Qed.
Lemma keep_val v : kval (keeps_of v) = v.
Proof. destruct v; reflexivity. Qed.
Lemma clean_iff v : wt TStr v -> bclean (back_of v) = v <-> good_text (kval (keeps_of v)).
Proof.
  unfold bclean, bstr, good_text. rewrite back_val, keep_val. intros W. destruct v as [s| | | | | |]; try discriminate W; cbn [str_of].
  - split; [intros E; injection E as E; eauto|intros (s' & E & C); injection E as <-; congruence].
  - cbn in W. contradiction.
  - cbn in W. contradiction.
  - cbn in W. contradiction.
Qed.
Lemma none_or t v : same v -> wt (TPtr t) v -> bptr (back_of v) t = v <-> maybe (keeps_of v) t.
Proof.
  intros S W. unfold bptr, default, maybe, absent, here. rewrite keep_val. rewrite <- (S (TPtr t) false W).
  destruct v as [| | | |[x|]| |]; cbn in W; try discriminate; try contradiction.
  - destruct (bback (back_of (VPtr (Some x))) (TPtr t) false) as [y|].
    + split; [intros ->; right; reflexivity|]. intros [E|E]; [discriminate|]. injection E as ->. reflexivity.
    + split; [discriminate|]. intros [E|E]; discriminate.
  - cbn. split; auto.
Qed.
Lemma somes_le {A B} (f : A -> option B) l : length (somes f l) <= length l.
Proof. induction l as [|x l IH]; [auto|]. cbn [somes length]. destruct (f x); cbn [length]; lia. Qed.
Lemma somes_iff {B} (g : val -> B) (f : B -> option val) l : somes f (map g l) = l <-> Forall (fun x => f (g x) = Some x) l.
Proof.
  induction l as [|x l IH]; cbn [map somes]; [split; auto; constructor|]. destruct (f (g x)) as [y|] eqn:E.
  - split.
    + intros Q. injection Q as -> Q. constructor; [exact E|apply IH, Q].
    + intros F. inversion F as [|? ? F1 F2]; subst. rewrite E in F1. injection F1 as ->. f_equal. apply IH, F2.
  - split; [|intros F; inversion F; congruence]. intros Q. exfalso. pose proof (somes_le f (map g l)) as L. rewrite map_length, Q in L. cbn in L. lia.
Qed.
Lemma all_iff (P : val -> Prop) (Q : knode -> Prop) l : (forall x, In x l -> P x <-> Q (keeps_of x)) -> Forall P l <-> list_all Q (map keeps_of l).
Proof.
  intros H. rewrite list_all_Forall, Forall_map, !Forall_forall. split; intros F x I; apply (H x I), F, I.
Qed.

(** ** Fields *)
Lemma data_iff f name : String.eqb (element_name (f_ty f) name) name = true <-> own_name f name.
Proof.
  unfold element_name, own_name, is_data. assert (E : core (f_ty f) = written_type (f_ty f)). { generalize (f_ty f). induction t; cbn; auto. }
  rewrite E. destruct (written_type (f_ty f)) as [| | | | | | |n]; try (rewrite String.eqb_refl; split; [discriminate|reflexivity]).
  destruct (String.eqb_spec n "DataClassification") as [->|N]; [rewrite String.eqb_eq; split; [intros <-; auto|intros ->; auto]|].
  rewrite String.eqb_refl. split; [intros _ Q; injection Q as ->; congruence|reflexivity].
Qed.
Lemma default_iff t fs f v omit : kind_of t = KStruct fs -> In f fs -> same v -> wt (f_ty f) v ->
  default (f_ty f) (checked_back (back_of v) (f_ty f) omit) = v <-> v = zero_of (f_ty f) \/ ((omit = true -> empty_value v = false) /\ keeps (keeps_of v) (f_ty f) omit).
Proof.
  intros K I S W. rewrite <- (S (f_ty f) omit W). unfold checked_back. rewrite back_val. pose proof (zero_stays t fs f omit K I) as Z.
  destruct (omit && empty_value v)%bool eqn:O.
  - apply andb_prop in O as (-> & O). cbn [default]. split; [auto|]. intros [->|(E & _)]; [reflexivity|]. rewrite E in O by reflexivity. discriminate.
  - split.
    + intros D. destruct (bback (back_of v) (f_ty f) omit) as [y|]; cbn [default] in D; [right|left; auto]. subst y. split; [|reflexivity]. intros ->. exact O.
    + intros [->|(_ & ->)]; [exact Z|reflexivity].
Qed.
Lemma field_iff t fs f v : kind_of t = KStruct fs -> In f fs -> same v -> wt (f_ty f) v -> (is_chardata f = true -> f_ty f = TStr) -> back_field f (back_of v) = v <-> field_keeps f (keeps_of v).
Proof.
  intros K I S W Cd. unfold back_field, field_keeps. unfold is_chardata in Cd. destruct (xml_info f) as [[k ps name omit]|]; [|rewrite keep_val; split; auto].
  destruct k.
  - rewrite keep_val. apply (default_iff t fs); auto.
  - rewrite (Cd eq_refl) in W. exact (clean_iff v W).
  - destruct (String.eqb (element_name (f_ty f) name) name) eqn:E.
    + apply data_iff in E. rewrite keep_val, (default_iff t fs f v omit K I S W). tauto.
    + rewrite keep_val. split; [auto|]. intros [->|(N & _)]; [reflexivity|]. apply data_iff in N. congruence.
Qed.
Lemma chardata_str : forallb (fun f => negb (is_chardata f) || match f_ty f with TStr => true | _ => false end)%bool struct_fields = true.
Proof. vm_compute. reflexivity. Qed.
Lemma fields_iff t fs vs : kind_of t = KStruct fs -> list_all (everywhere same) vs -> wt t (VStruct vs) -> back_fields fs (map back_of vs) = vs <-> fields_keep fs (map keeps_of vs).
Proof.
  intros K B W. cbn [wt] in W. rewrite K in W.
  assert (C : forall f, In f fs -> is_chardata f = true -> f_ty f = TStr).
  { intros f I. pose proof chardata_str as X. rewrite forallb_forall in X. assert (J : In f struct_fields).
    { apply kind_struct_in in K as (n & -> & Id). unfold struct_fields. apply in_flat_map. exists (n, DStruct fs). auto. }
    specialize (X f J). intros D. rewrite D in X. destruct (f_ty f); try discriminate. reflexivity. }
  assert (G : forall gs ws, incl gs fs -> list_all (everywhere same) ws -> zip_all (fun f x => wt (f_ty f) x) ws gs -> back_fields gs (map back_of ws) = ws <-> fields_keep gs (map keeps_of ws)).
  { clear B W vs. induction gs as [|g gs IH]; intros [|v ws] In_ B W; try contradiction; [split; reflexivity|]. destruct B as (B1 & B). destruct W as (W1 & W).
    cbn [map back_fields fields_keep]. rewrite <- (field_iff t fs g v K (In_ g (or_introl eq_refl)) (everywhere_here _ _ B1) W1 (C g (In_ g (or_introl eq_refl)))).
    rewrite <- (IH ws (fun x I => In_ x (or_intror I)) B W). split; [intros E; injection E; auto|intros (-> & ->); reflexivity]. }
  apply G; auto. apply incl_refl.
Qed.

(** ** The types with methods *)
Lemma struct_is l l' : Some (VStruct l) = Some (VStruct l') <-> l = l'.
Proof. split; [intros E; injection E; auto|intros ->; reflexivity]. Qed.
Lemma slice_is l l' : Some (VSlice (Some l)) = Some (VSlice (Some l')) <-> l = l'.
Proof. split; [intros E; injection E; auto|intros ->; reflexivity]. Qed.
Lemma cons_is (x y : val) l l' : x :: l = y :: l' <-> x = y /\ l = l'.
Proof. split; [intros E; injection E; auto|intros (-> & ->); reflexivity]. Qed.
Lemma nil_is : @nil val = [] <-> True.
Proof. split; auto. Qed.
Lemma none_is x : VPtr None = x <-> absent (keeps_of x).
Proof. unfold absent. rewrite keep_val. split; auto. Qed.
Lemma blank_is x : VStr "" = x <-> blank_string (keeps_of x).
Proof. unfold blank_string. rewrite keep_val. split; auto. Qed.
Lemma none_some x : (None = Some x :> option val) <-> False.
Proof. split; [discriminate|contradiction]. Qed.
Lemma here_set x t : here (keeps_of x) t -> ~ absent (keeps_of x).
Proof. unfold here, absent. rewrite keep_val. intros H ->. exact H. Qed.
Lemma set_is x t : wt (TPtr t) x -> bset (back_of x) = true <-> ~ absent (keeps_of x).
Proof.
  intros W. unfold bset, absent. rewrite back_val, keep_val. destruct x as [| | | |[x|]| |]; cbn in W; try discriminate; try contradiction; cbn; split; congruence.
Qed.
Lemma unset_is x t : wt (TPtr t) x -> bset (back_of x) = false <-> absent (keeps_of x).
Proof.
  intros W. unfold bset, absent. rewrite back_val, keep_val. destruct x as [| | | |[x|]| |]; cbn in W; try discriminate; try contradiction; cbn; split; congruence.
Qed.
Lemma filled_is x : wt TStr x -> bfilled (back_of x) = true -> (good_nonempty (kval (keeps_of x)) <-> good_text (kval (keeps_of x))) /\ ~ blank_string (keeps_of x).
Proof.
  unfold bfilled, good_nonempty, good_text, blank_string. rewrite back_val, keep_val. intros W. destruct x as [s| | | | | |]; cbn in W; try discriminate W; try contradiction. unfold nonempty. cbn [str_of].
  destruct (String.eqb_spec s "") as [->|N]; [discriminate|]. intros _. split; [|congruence]. split; intros (s' & E & H); [exists s'; tauto|exists s'; injection E as <-; auto].
Qed.
Lemma unfilled_is x : wt TStr x -> bfilled (back_of x) = false -> ~ good_nonempty (kval (keeps_of x)) /\ blank_string (keeps_of x).
Proof.
  unfold bfilled, good_nonempty, good_text, blank_string. rewrite back_val, keep_val. intros W. destruct x as [s| | | | | |]; cbn in W; try discriminate W; try contradiction. unfold nonempty. cbn [str_of].
  destruct (String.eqb_spec s "") as [->|N]; [|discriminate]. intros _. split; [|reflexivity]. intros (s' & E & _ & N). congruence.
Qed.

Lemma struct_case n fs v : kind_of (TRef n) = KStruct fs -> marshaler (TRef n) <> MNone -> below same v ->
  (forall vs, list_all (everywhere same) vs -> wt (TRef n) (VStruct vs) -> zip_all (fun f x => wt (f_ty f) x) vs fs ->
     back_method (marshaler (TRef n)) fs (VStruct vs) (map back_of vs) = Some (VStruct vs) <-> method_keeps (marshaler (TRef n)) fs (VStruct vs) (map keeps_of vs)) ->
  forall omit, wt (TRef n) v -> bback (back_of v) (TRef n) omit = Some v <-> keeps (keeps_of v) (TRef n) omit.
Proof.
  intros K M B H omit W. pose proof W as W0. destruct (wt_struct _ _ _ K W) as (vs & -> & Wz). specialize (H vs B W0 Wz).
  cbn [back_of keeps_of bback keeps]. unfold back_value, value_keeps. unfold fields_of. rewrite K.
  destruct (marshaler (TRef n)); try exact H. congruence.
Qed.

Ltac misfit W := exfalso; clear - W; cbn [zip_all] in W; decompose [and] W; contradiction.
Ltac open_fields vs B W :=
  lazymatch type of W with zip_all _ _ ?fs => unfold fs in W end;
  repeat (let v := fresh "v" in destruct vs as [|v vs]; [solve [misfit W]|]);
  destruct vs as [|? ?]; [|misfit W];
  cbn [list_all zip_all f_ty] in B, W;
  repeat match goal with
         | H : _ /\ _ |- _ => destruct H
         | H : everywhere same _ |- _ => apply everywhere_here in H
         end.
Ltac atoms := rewrite ?struct_is, ?cons_is, ?nil_is, ?none_is, ?blank_is, ?none_some.
(** What is known of the pointers and strings that were found. *)
Ltac ptrs := repeat match goal with
  | W : wt (TPtr ?t) ?x |- context [bset (back_of ?x)] => let E := fresh "E" in destruct (bset (back_of x)) eqn:E;
      [apply (set_is x t W) in E|apply (unset_is x t W) in E]
  | W : wt TStr ?x |- context [bfilled (back_of ?x)] => let E := fresh "E" in destruct (bfilled (back_of x)) eqn:E;
      [apply (filled_is x W) in E|apply (unfilled_is x W) in E]
  end; cbn [orb andb].
Ltac known := repeat match goal with
  | S : same ?x, W : wt (TPtr ?t) ?x |- context [bptr (back_of ?x) ?t = ?x] => rewrite (none_or t x S W)
  | W : wt TStr ?x |- context [bclean (back_of ?x) = ?x] => rewrite (clean_iff x W)
  end.
Ltac heres := repeat match goal with
  | |- context [here (keeps_of ?x) ?t] => lazymatch goal with H : here (keeps_of x) t -> ~ absent (keeps_of x) |- _ => fail | _ => pose proof (here_set x t) end
  end.
Ltac choose := cbn [map back_method method_keeps]; ptrs; atoms; known; unfold maybe; heres; tauto.

Lemma keep_copyright vs : list_all (everywhere same) vs -> zip_all (fun f x => wt (f_ty f) x) vs fields_Copyright ->
  back_method MCopyright fields_Copyright (VStruct vs) (map back_of vs) = Some (VStruct vs) <-> method_keeps MCopyright fields_Copyright (VStruct vs) (map keeps_of vs).
Proof. intros B W. open_fields vs B W. choose. Qed.
Lemma keep_dependency vs : list_all (everywhere same) vs -> zip_all (fun f x => wt (f_ty f) x) vs fields_Dependency ->
  back_method MDependency fields_Dependency (VStruct vs) (map back_of vs) = Some (VStruct vs) <-> method_keeps MDependency fields_Dependency (VStruct vs) (map keeps_of vs).
Proof. intros B W. open_fields vs B W. choose. Qed.
Lemma keep_asserter vs : list_all (everywhere same) vs -> zip_all (fun f x => wt (f_ty f) x) vs fields_AsserterChoice ->
  back_method MAsserter fields_AsserterChoice (VStruct vs) (map back_of vs) = Some (VStruct vs) <-> method_keeps MAsserter fields_AsserterChoice (VStruct vs) (map keeps_of vs).
Proof. intros B W. open_fields vs B W. choose. Qed.
Lemma keep_tools vs : list_all (everywhere same) vs -> zip_all (fun f x => wt (f_ty f) x) vs fields_ToolsChoice ->
  back_method MTools fields_ToolsChoice (VStruct vs) (map back_of vs) = Some (VStruct vs) <-> method_keeps MTools fields_ToolsChoice (VStruct vs) (map keeps_of vs).
Proof. intros B W. open_fields vs B W. choose. Qed.
Lemma keep_data vs : list_all (everywhere same) vs -> zip_all (fun f x => wt (f_ty f) x) vs fields_DataClassification ->
  back_method MData fields_DataClassification (VStruct vs) (map back_of vs) = Some (VStruct vs) <-> method_keeps MData fields_DataClassification (VStruct vs) (map keeps_of vs).
Proof. intros B W. open_fields vs B W. choose. Qed.
Lemma behind_some x l : behind (keeps_of (VPtr (Some x))) l <-> ksubs (keeps_of x) = l.
Proof.
  unfold behind. cbn [keeps_of kval ksubs]. split.
  - intros (n & _ & E & <-). injection E as <-. reflexivity.
  - intros <-. exists (keeps_of x). rewrite keep_val. auto.
Qed.
Lemma behind_none l : behind (keeps_of (VPtr None)) l <-> False.
Proof. split; [|contradiction]. intros (n & E & _). discriminate. Qed.
Lemma ptr_case t x : wt (TPtr t) x -> x = VPtr None \/ exists y, x = VPtr (Some y) /\ wt t y.
Proof. destruct x as [| | | |[x|]| |]; cbn; try discriminate; try contradiction; eauto. Qed.
Lemma str_case x : wt TStr x -> exists s, x = VStr s.
Proof. destruct x as [| | | |[x|]|[l|]|]; cbn; try discriminate; try contradiction; eauto. Qed.
Lemma ptr_is x y : VPtr (Some x) = VPtr (Some y) <-> x = y.
Proof. split; [intros E; injection E; auto|intros ->; reflexivity]. Qed.
Lemma str_is s s' : VStr s = VStr s' <-> s = s'.
Proof. split; [intros E; injection E; auto|intros ->; reflexivity]. Qed.
Lemma text_iff s : good_text (VStr s) <-> xml_clean s = s.
Proof. unfold good_text. split; [intros (s' & E & C); injection E as <-; exact C|eauto]. Qed.
Lemma nonempty_iff s : good_nonempty (VStr s) <-> xml_clean s = s /\ s <> "".
Proof. unfold good_nonempty. split; [intros (s' & E & C); injection E as <-; exact C|eauto]. Qed.

Lemma val_none_dec x : x = VPtr None \/ x <> VPtr None.
Proof. destruct x as [| | | |[x|]| |]; auto; right; discriminate. Qed.
Lemma keep_pair t (a b : val) : wt (TPtr t) a -> kind_of t = KStruct fields_PredefinedCertificateState \/ kind_of t = KStruct fields_CommonCertificateExtension -> a <> VPtr None ->
  exists x y, a = VPtr (Some (VStruct [VStr x; VStr y])).
Proof.
  intros W K N. destruct (ptr_case _ _ W) as [->|(z & -> & Wz)]; [congruence|].
  destruct K as [K|K]; destruct (wt_struct _ _ _ K Wz) as (vs & -> & Z); unfold fields_PredefinedCertificateState, fields_CommonCertificateExtension in Z;
    destruct vs as [|u [|w [|]]]; try (misfit Z); cbn [zip_all f_ty] in Z; destruct Z as (Z1 & Z2 & _);
    destruct (str_case _ Z1) as (x & ->); destruct (str_case _ Z2) as (y & ->); eauto.
Qed.
Lemma pair_exists (s r : string) (P : val -> val -> Prop) :
  (exists state reason, behind (keeps_of (VPtr (Some (VStruct [VStr s; VStr r])))) [state; reason] /\ P (kval state) (kval reason)) <-> P (VStr s) (VStr r).
Proof.
  split.
  - intros (a & b & H & Q). apply behind_some in H. cbn in H. injection H as <- <-. exact Q.
  - intros Q. exists (keeps_of (VStr s)), (keeps_of (VStr r)). split; [apply behind_some; reflexivity|exact Q].
Qed.
Lemma keep_state vs : list_all (everywhere same) vs -> zip_all (fun f x => wt (f_ty f) x) vs fields_CertificateState ->
  back_method MState fields_CertificateState (VStruct vs) (map back_of vs) = Some (VStruct vs) <-> method_keeps MState fields_CertificateState (VStruct vs) (map keeps_of vs).
Proof.
  intros B W. open_fields vs B W. rename v into a, v0 into b. cbn [map back_method method_keeps].
  destruct (val_none_dec a) as [->|N].
  - replace (bset (back_of (VPtr None))) with false by reflexivity. cbv iota. ptrs; atoms; known; unfold maybe; heres;
    assert (X : ~ exists state reason : knode, behind (keeps_of (VPtr None)) [state; reason] /\ good_nonempty (kval state) /\ good_text (kval reason)) by (intros (? & ? & Q & _); apply behind_none in Q; exact Q);
    tauto.
  - destruct (keep_pair (TRef "PredefinedCertificateState") a b) as (s & r & ->); auto.
    rewrite (pair_exists s r (fun x y => good_nonempty x /\ good_text y)). rewrite text_iff, nonempty_iff.
    assert (Ab : ~ absent (keeps_of (VPtr (Some (VStruct [VStr s; VStr r]))))) by (unfold absent; cbn; discriminate).
    cbn [back_of bset bval nonnil bpointee bsubs map]. unfold bfilled, bclean, bstr, nonempty. cbn [bval str_of].
    destruct (String.eqb_spec s "") as [->|Ns]; cbn [negb]; atoms; unfold some_ptr; rewrite ?ptr_is.
    + split; [intros (Q & _); discriminate Q|]. intros [(_ & (_ & Q) & _)|(Q & _)]; [congruence|contradiction].
    + split.
      * intros (Q & C & _). injection Q as Q1 Q2. left. rewrite Q1, Q2. auto.
      * intros [(C & (Q1 & _) & Q2)|(Q & _)]; [|contradiction]. rewrite Q1, Q2. auto.
Qed.
Lemma keep_extension vs : list_all (everywhere same) vs -> zip_all (fun f x => wt (f_ty f) x) vs fields_CertificateExtension ->
  back_method MExtension fields_CertificateExtension (VStruct vs) (map back_of vs) = Some (VStruct vs) <-> method_keeps MExtension fields_CertificateExtension (VStruct vs) (map keeps_of vs).
Proof.
  intros B W. open_fields vs B W. rename v into a, v0 into b. cbn [map back_method method_keeps].
  destruct (val_none_dec a) as [->|N].
  - replace (bset (back_of (VPtr None))) with false by reflexivity. cbv iota. ptrs; atoms; known; unfold maybe; heres;
    assert (X : ~ exists state reason : knode, behind (keeps_of (VPtr None)) [state; reason] /\ good_nonempty (kval state) /\ good_text (kval reason)) by (intros (? & ? & Q & _); apply behind_none in Q; exact Q);
    tauto.
  - destruct (keep_pair (TRef "CommonCertificateExtension") a b) as (s & r & ->); auto.
    rewrite (pair_exists s r (fun x y => good_nonempty x /\ good_text y)). rewrite text_iff, nonempty_iff.
    assert (Ab : ~ absent (keeps_of (VPtr (Some (VStruct [VStr s; VStr r]))))) by (unfold absent; cbn; discriminate).
    cbn [back_of bset bval nonnil bpointee bsubs map]. unfold bfilled, bclean, bstr, nonempty. cbn [bval str_of].
    destruct (String.eqb_spec s "") as [->|Ns]; cbn [negb]; atoms; unfold some_ptr; rewrite ?ptr_is.
    + split; [intros (Q & _); discriminate Q|]. intros [(_ & (_ & Q) & _)|(Q & _)]; [congruence|contradiction].
    + split.
      * intros (Q & C & _). injection Q as Q1 Q2. left. rewrite Q1, Q2. auto.
      * intros [(C & (Q1 & _) & Q2)|(Q & _)]; [|contradiction]. rewrite Q1, Q2. auto.
Qed.
Lemma here_some t x : same (VPtr (Some x)) -> wt (TPtr t) (VPtr (Some x)) -> bptr (back_of (VPtr (Some x))) t = VPtr (Some x) <-> here (keeps_of (VPtr (Some x))) t.
Proof. intros S W. rewrite (none_or t _ S W). unfold maybe, absent. cbn [keeps_of kval]. split; [intros [E|H]; [discriminate|exact H]|auto]. Qed.
Lemma keep_dataset vs : list_all (everywhere same) vs -> zip_all (fun f x => wt (f_ty f) x) vs fields_MLDatasetChoice ->
  back_method MDataset fields_MLDatasetChoice (VStruct vs) (map back_of vs) = Some (VStruct vs) <-> method_keeps MDataset fields_MLDatasetChoice (VStruct vs) (map keeps_of vs).
Proof.
  intros B W. open_fields vs B W. rename v into a, v0 into d. cbn [map back_method method_keeps].
  destruct (bfilled (back_of a)) eqn:F.
  - apply (filled_is a) in F; [|assumption]. atoms. known. tauto.
  - apply (unfilled_is a) in F; [|assumption]. match goal with H : wt (TPtr _) d |- _ => rename H into Wd end. match goal with H : same d |- _ => rename H into Sd end. destruct (ptr_case _ _ Wd) as [->|(y & -> & Wy)].
    + replace (bset (back_of (VPtr None))) with false by reflexivity. cbv iota. atoms. heres. unfold absent in *. cbn [keeps_of kval] in *. tauto.
    + replace (bset (back_of (VPtr (Some y)))) with true by reflexivity. cbv iota. atoms. unfold drop_if.
      assert (Ab : ~ absent (keeps_of (VPtr (Some y)))) by (unfold absent; cbn; discriminate). rewrite (keep_val (VPtr (Some y))).
      pose proof (here_some _ y Sd Wd) as Hs. set (k := keeps_of (VPtr (Some y))) in *. clearbody k.
      split.
      * intros (_ & E & _). right. split; [tauto|].
        destruct (zero_value (deref (bptr (back_of (VPtr (Some y))) (TRef "ComponentData")))) eqn:Z; [discriminate|]. rewrite E in Z. cbn [deref] in Z. apply Hs in E. eauto.
      * intros [Q|(_ & Q & x & E & Z)]; [tauto|]. injection E as <-. apply Hs in Q. rewrite Q. cbn [deref]. rewrite Z. tauto.
Qed.
Lemma map_kval vs : map kval (map keeps_of vs) = vs.
Proof. rewrite map_map. induction vs as [|v vs IH]; [reflexivity|]. cbn [map]. rewrite keep_val, IH. reflexivity. Qed.
Lemma keep_ikev2 n fs vs : kind_of (TRef n) = KStruct fs -> match fs with f :: _ => kind_of (f_ty f) = KStr | [] => False end -> list_all (everywhere same) vs -> wt (TRef n) (VStruct vs) -> zip_all (fun f x => wt (f_ty f) x) vs fs ->
  back_method MIKEv2 fs (VStruct vs) (map back_of vs) = Some (VStruct vs) <-> method_keeps MIKEv2 fs (VStruct vs) (map keeps_of vs).
Proof.
  intros K T B W Z. pose proof (fields_iff _ _ _ K B W) as F. destruct fs as [|f fs]; [contradiction|]. destruct vs as [|a vs]; [contradiction|]. destruct Z as (Wa & Z).
  assert (Sa : exists s, a = VStr s) by (destruct a as [| | | |[]|[]|]; cbn [wt] in Wa; rewrite T in Wa; try discriminate; try contradiction; eauto). destruct Sa as (s & ->). cbn [map back_method method_keeps tl]. rewrite map_kval. cbn [map] in F.
  unfold bfilled, bstr, nonempty, blank_string. cbn [back_of bval keeps_of kval str_of]. cbn [back_of keeps_of] in F.
  destruct (String.eqb_spec s "") as [->|N]; cbn [negb]; rewrite struct_is.
  - rewrite F. split; [auto|]. intros [((s' & E & _ & N) & _)|(_ & H)]; [congruence|exact H].
  - rewrite cons_is, str_is. split.
    + intros (E & Q). left. split; [exists s; tauto|congruence].
    + intros [((s' & E & C & _) & Q)|(E & _)]; [|congruence]. injection E as <-. split; [exact C|congruence].
Qed.

Lemma slice_case t x : wt (TSlice t) x -> x = VSlice None \/ exists l, x = VSlice (Some l) /\ Forall (wt t) l.
Proof. destruct x as [| | | |[x|]|[l|]|]; cbn; try discriminate; try contradiction; eauto. intros H. right. exists l. split; [reflexivity|]. apply list_all_Forall, H. Qed.
Lemma sub_same v x : everywhere same v -> match v with VPtr (Some y) => x = y | VSlice (Some l) | VStruct l => In x l | _ => False end -> everywhere same x.
Proof.
  intros E I. apply everywhere_below in E. destruct v as [| | | |[y|]|[l|]|l]; try contradiction; cbn [below] in E; [subst; exact E| |];
    apply list_all_Forall in E; rewrite Forall_forall in E; apply E, I.
Qed.
Lemma some_is (x y : val) : Some x = Some y <-> x = y.
Proof. split; [intros E; injection E; auto|intros ->; reflexivity]. Qed.

(** A list behind a pointer, of which elements may be dropped. *)
Lemma list_behind t d (back : bnode -> option val) (keep : knode -> Prop) : wt (TPtr (TSlice t)) d -> everywhere same d ->
  (forall x, wt t x -> everywhere same x -> back (back_of x) = Some x <-> keep (keeps_of x)) ->
  ptr_if (somes back (bpointee (back_of d))) = d <-> absent (keeps_of d) \/ exists l, behind (keeps_of d) l /\ l <> [] /\ list_all keep l.
Proof.
  intros W E H. destruct (ptr_case _ _ W) as [->|(y & -> & Wy)].
  - cbn. split; [left; reflexivity|reflexivity].
  - assert (Ab : ~ absent (keeps_of (VPtr (Some y)))) by (unfold absent; cbn; discriminate).
    pose proof (sub_same _ y E eq_refl) as Ey. destruct (slice_case _ _ Wy) as [->|(l & -> & Wl)].
    + cbn. split; [discriminate|]. intros [Q|(l & Q & N & _)]; [contradiction|]. apply behind_some in Q. cbn in Q. congruence.
    + cbn [bpointee back_of bsubs].
      assert (All : somes back (map back_of l) = l <-> list_all keep (map keeps_of l)).
      { rewrite somes_iff. apply all_iff. intros x I. apply H; [rewrite Forall_forall in Wl; apply Wl, I|]. apply (sub_same _ x Ey I). }
      split.
      * intros Q. right. exists (map keeps_of l). split; [apply behind_some; reflexivity|]. unfold ptr_if, some_ptr in Q.
        destruct (somes back (map back_of l)) as [|z zs] eqn:Es; [discriminate|]. injection Q as Q. split; [rewrite <- Q; discriminate|apply All, Q].
      * intros [Q|(k & Q & N & A)]; [contradiction|]. apply behind_some in Q. cbn [keeps_of ksubs] in Q. subst k. apply All in A. rewrite A. destruct l; [contradiction|reflexivity].
Qed.
Lemma patent_iff x : wt (TRef "PatentChoice") x -> everywhere same x -> back_patent (back_of x) = Some x <-> patent_keeps (keeps_of x).
Proof.
  intros W E. destruct (wt_struct (TRef "PatentChoice") _ _ eq_refl W) as (vs & -> & Z). apply everywhere_below in E. cbn [below] in E. open_fields vs E Z.
  unfold back_patent, patent_keeps. cbn [back_of keeps_of bsubs ksubs map]. ptrs; atoms; known; unfold maybe; heres; tauto.
Qed.
Lemma keep_definitions vs : list_all (everywhere same) vs -> zip_all (fun f x => wt (f_ty f) x) vs fields_Definitions ->
  back_method MDefinitions fields_Definitions (VStruct vs) (map back_of vs) = Some (VStruct vs) <-> method_keeps MDefinitions fields_Definitions (VStruct vs) (map keeps_of vs).
Proof.
  intros B W. assert (B2 : list_all (everywhere same) vs) by exact B. open_fields vs B W. cbn [map back_method method_keeps]. atoms. known.
  rewrite (list_behind (TRef "PatentChoice") _ back_patent patent_keeps); [tauto|assumption|apply B2|apply patent_iff].
Qed.
Lemma environment_iff x : wt (TRef "EnvironmentVariableChoice") x -> everywhere same x -> back_environment (back_of x) = Some x <-> environment_keeps (keeps_of x).
Proof.
  intros W E. destruct (wt_struct (TRef "EnvironmentVariableChoice") _ _ eq_refl W) as (vs & -> & Z). apply everywhere_below in E. cbn [below] in E. open_fields vs E Z.
  unfold back_environment, environment_keeps. cbn [back_of keeps_of bsubs ksubs map]. ptrs; atoms; known; unfold maybe; heres; tauto.
Qed.
Lemma detail_iff x : wt (TRef "LicenseExpressionDetail") x -> everywhere same x -> back_detail (back_of x) = x <-> detail_keeps (keeps_of x).
Proof.
  intros W E. destruct (wt_struct (TRef "LicenseExpressionDetail") _ _ eq_refl W) as (vs & -> & Z). apply everywhere_below in E. cbn [below] in E. open_fields vs E Z.
  unfold back_detail, detail_keeps. cbn [back_of keeps_of bsubs ksubs map]. rewrite <- some_is. atoms; known; unfold maybe; heres; tauto.
Qed.
Lemma somes_some {A} (f : A -> val) l : somes (fun x => Some (f x)) l = map f l.
Proof. induction l as [|x l IH]; [reflexivity|]. cbn. rewrite IH. reflexivity. Qed.
Lemma ack_iff x : wt (TPtr TStr) x -> str_if (match bval (back_of x) with VPtr (Some y) => xml_clean (str_of y) | _ => "" end) = x <->
  absent (keeps_of x) \/ exists y, kval (keeps_of x) = VPtr (Some y) /\ good_nonempty y.
Proof.
  intros W. unfold absent. rewrite back_val, keep_val. destruct (ptr_case _ _ W) as [->|(y & -> & Wy)]; [cbn; split; auto|].
  destruct (str_case _ Wy) as (s & ->). cbn [str_of]. unfold str_if, some_ptr. destruct (String.eqb_spec (xml_clean s) "") as [Q|N].
  - split; [discriminate|]. intros [E|(y & E & G)]; [discriminate|]. injection E as <-. apply nonempty_iff in G as (C & N). congruence.
  - split; [intros E; injection E as E; right; exists (VStr s); split; [reflexivity|apply nonempty_iff; split; congruence]|].
    intros [E|(y & E & G)]; [discriminate|]. injection E as <-. apply nonempty_iff in G as (C & _). rewrite C. reflexivity.
Qed.
Lemma license_choice_iff x : wt (TRef "LicenseChoice") x -> everywhere same x -> back_license_choice (back_of x) = Some x <-> license_choice_keeps (keeps_of x).
Proof.
  intros W E. destruct (wt_struct (TRef "LicenseChoice") _ _ eq_refl W) as (vs & -> & Z). apply everywhere_below in E. cbn [below] in E.
  assert (E2 : list_all (everywhere same) vs) by exact E. open_fields vs E Z.
  unfold back_license_choice, license_choice_keeps. cbn [back_of keeps_of bsubs ksubs map]. 
  rewrite <- (somes_some back_detail).
  match goal with W : wt (TPtr (TSlice (TRef "LicenseExpressionDetail"))) ?d |- _ =>
    assert (D : ptr_if (somes (fun x => Some (back_detail x)) (bpointee (back_of d))) = d <-> absent (keeps_of d) \/ exists l, behind (keeps_of d) l /\ l <> [] /\ list_all detail_keeps l)
      by (apply (list_behind (TRef "LicenseExpressionDetail")); [exact W|apply E2|intros y Wy Ey; rewrite some_is; apply detail_iff; assumption]) end.
  match goal with W : wt (TPtr TStr) ?d |- _ => pose proof (ack_iff d W) as A end.
  ptrs; atoms; known; rewrite ?D, ?A; unfold maybe; heres; tauto.
Qed.
Lemma identity_iff d : wt (TPtr (TRef "EvidenceIdentityChoice")) d -> everywhere same d ->
  match bpointee (back_of d) with
  | [one; many] =>
      let l := if bset many then bptr many (TSlice (TRef "EvidenceIdentity"))
               else match bptr one (TRef "EvidenceIdentity") with VPtr (Some x) => some_ptr (VSlice (Some [x])) | _ => VPtr None end in
      if nonnil l then some_ptr (VStruct [VPtr None; l]) else VPtr None
  | _ => VPtr None
  end = d <->
  absent (keeps_of d) \/ exists one many, behind (keeps_of d) [one; many] /\ absent one /\ here many (TSlice (TRef "EvidenceIdentity")).
Proof.
  intros W E. destruct (ptr_case _ _ W) as [->|(y & -> & Wy)]; [cbn; split; auto; left; reflexivity|].
  assert (Ab : ~ absent (keeps_of (VPtr (Some y)))) by (unfold absent; cbn; discriminate).
  pose proof (sub_same _ y E eq_refl) as Ey. destruct (wt_struct (TRef "EvidenceIdentityChoice") _ _ eq_refl Wy) as (vs & -> & Z). apply everywhere_below in Ey. cbn [below] in Ey. open_fields vs Ey Z.
  rename v into a, v0 into b. cbn [bpointee back_of bsubs map].
  assert (R : (exists one many, behind (keeps_of (VPtr (Some (VStruct [a; b])))) [one; many] /\ absent one /\ here many (TSlice (TRef "EvidenceIdentity"))) <->
              absent (keeps_of a) /\ here (keeps_of b) (TSlice (TRef "EvidenceIdentity"))).
  { split; [intros (k1 & k2 & Q & R); apply behind_some in Q; cbn in Q; injection Q as <- <-; exact R|].
    intros R. exists (keeps_of a), (keeps_of b). split; [apply behind_some; reflexivity|exact R]. }
  rewrite R. clear R. cbv zeta. match goal with S : same b, W : wt _ b |- _ => pose proof (none_or _ b S W) as N; pose proof (set_is b _ W) as S1; pose proof (unset_is b _ W) as S2 end. pose proof (here_set b (TSlice (TRef "EvidenceIdentity"))) as Hb.
  unfold maybe in N. destruct (bset (back_of b)) eqn:Sb.
  - split.
    + destruct (nonnil (bptr (back_of b) (TSlice (TRef "EvidenceIdentity")))); [|discriminate]. unfold some_ptr. intros Q. injection Q as <- Q. right. split; [apply none_is; reflexivity|]. tauto.
    + intros [Q|(A & Hh)]; [contradiction|]. assert (Q : bptr (back_of b) (TSlice (TRef "EvidenceIdentity")) = b) by tauto. rewrite Q. apply none_is in A. subst a.
      match goal with W : wt _ b |- _ => destruct (ptr_case _ _ W) as [->|(z & -> & _)] end; [discriminate Sb|reflexivity].
  - split; [|tauto]. assert (Nb : VPtr None = b) by (apply none_is; tauto). subst b. destruct (bptr (back_of a) _) as [| | | |[z|]| |]; cbn; discriminate.
Qed.
Lemma callstack_iff d : wt (TPtr (TRef "Callstack")) d -> everywhere same d ->
  drop_if (forallb zero_value (fields_of_val (deref (bptr (back_of d) (TRef "Callstack"))))) (bptr (back_of d) (TRef "Callstack")) = d <->
  absent (keeps_of d) \/ (here (keeps_of d) (TRef "Callstack") /\ exists l, behind (keeps_of d) l /\ forallb zero_value (map kval l) = false).
Proof.
  intros W E. destruct (ptr_case _ _ W) as [->|(y & -> & Wy)]; [cbn; split; auto; left; reflexivity|].
  assert (Ab : ~ absent (keeps_of (VPtr (Some y)))) by (unfold absent; cbn; discriminate).
  pose proof (here_some _ y (everywhere_here _ _ E) W) as Hs. destruct (wt_struct (TRef "Callstack") _ _ eq_refl Wy) as (vs & -> & _).
  assert (R : (exists l, behind (keeps_of (VPtr (Some (VStruct vs)))) l /\ forallb zero_value (map kval l) = false) <-> forallb zero_value vs = false).
  { split; [intros (l & Q & R); apply behind_some in Q; cbn in Q; subst l; rewrite map_kval in R; exact R|].
    intros R. exists (map keeps_of vs). split; [apply behind_some; reflexivity|rewrite map_kval; exact R]. }
  rewrite R. unfold drop_if. split.
  - destruct (forallb zero_value (fields_of_val _)) eqn:F; [discriminate|]. intros Q. rewrite Q in F. cbn [deref fields_of_val] in F. tauto.
  - intros [Q|(Hh & F)]; [contradiction|]. apply Hs in Hh. rewrite Hh. cbn [deref fields_of_val]. rewrite F. reflexivity.
Qed.
Lemma licenses_iff d : wt (TPtr (TRef "Licenses")) d -> same d ->
  drop_if (empty_value (deref (bptr (back_of d) (TRef "Licenses")))) (bptr (back_of d) (TRef "Licenses")) = d <-> maybe (keeps_of d) (TRef "Licenses").
Proof.
  intros W S. rewrite <- (none_or _ d S W). destruct (ptr_case _ _ W) as [->|(y & -> & Wy)]; [cbn; split; auto|].
  unfold drop_if. split.
  - destruct (empty_value _); [discriminate|auto].
  - intros Q. pose proof (proj1 (here_some _ y S W) Q) as Hh. rewrite Q. cbn [deref]. destruct (empty_value y) eqn:Ey; [|reflexivity]. exfalso.
    unfold here in Hh. cbn [keeps_of keeps value_keeps elem_ty] in Hh. change (wt (TRef "Licenses") y) in Wy.
    destruct y as [| | | |[y|]|[l|]|l]; cbn in Wy; try discriminate; try contradiction.
    destruct l; [|discriminate]. cbn in Hh. tauto.
Qed.
Lemma keep_evidence vs : list_all (everywhere same) vs -> zip_all (fun f x => wt (f_ty f) x) vs fields_Evidence ->
  back_method MEvidence fields_Evidence (VStruct vs) (map back_of vs) = Some (VStruct vs) <-> method_keeps MEvidence fields_Evidence (VStruct vs) (map keeps_of vs).
Proof.
  intros B W. assert (B2 : list_all (everywhere same) vs) by exact B. open_fields vs B W. rename v into a, v0 into b, v1 into c, v2 into d, v3 into e.
  assert (Ia := identity_iff a ltac:(assumption) ltac:(apply B2)). assert (Ic := callstack_iff c ltac:(assumption) ltac:(apply B2)).
  assert (Id := licenses_iff d ltac:(assumption) ltac:(assumption)).
  cbn [map back_method method_keeps].
  set (ia := match bpointee (back_of a) with [one; many] => _ | _ => _ end) in *. set (ic := drop_if _ (bptr (back_of c) _)) in *. set (id := drop_if _ (bptr (back_of d) _)) in *. clearbody ia ic id.
  assert (F : (bset (back_of a) || bset (back_of b) || bset (back_of c) || bset (back_of d) || bset (back_of e))%bool = false <->
    absent (keeps_of a) /\ absent (keeps_of b) /\ absent (keeps_of c) /\ absent (keeps_of d) /\ absent (keeps_of e)).
  { rewrite !orb_false_iff. repeat match goal with W : wt (TPtr ?t) ?x |- context [bset (back_of ?x)] => rewrite (unset_is x t W) end. split; intros Q; decompose [and] Q; repeat split; assumption. }
  destruct (_ || _)%bool.
  - assert (F' : ~ (absent (keeps_of a) /\ absent (keeps_of b) /\ absent (keeps_of c) /\ absent (keeps_of d) /\ absent (keeps_of e))) by (intros Q; apply F in Q; discriminate).
    atoms; known. rewrite Ia, Ic, Id. clear - F'. split; [intros Q; decompose [and] Q; repeat split; assumption|intros (_ & Q); decompose [and] Q; repeat split; assumption].
  - split; [discriminate|]. intros (Q & _). destruct Q. apply F. reflexivity.
Qed.

(** ** All values *)
Lemma slice_keeps v t fs (back : bnode -> option val) (keep : knode -> Prop) m : wt (TSlice t) v -> below same v ->
  (forall x, wt t x -> everywhere same x -> back (back_of x) = Some x <-> keep (keeps_of x)) ->
  (forall ns w, back_method m fs w ns = match ns with [] => None | _ => Some (VSlice (Some (somes back ns))) end) ->
  (forall ns w, method_keeps m fs w ns <-> ns <> [] /\ list_all keep ns) ->
  back_method m fs v (bsubs (back_of v)) = Some v <-> method_keeps m fs v (ksubs (keeps_of v)).
Proof.
  intros W E H Hb Hk. rewrite Hb, Hk. destruct (slice_case _ _ W) as [->|(l & -> & Wl)]; [cbn; split; [discriminate|tauto]|].
  cbn [back_of keeps_of bsubs ksubs]. destruct l as [|x l]; [cbn; split; [discriminate|tauto]|].
  change (match map back_of (x :: l) with [] => None | _ => Some (VSlice (Some (somes back (map back_of (x :: l))))) end) with (Some (VSlice (Some (somes back (map back_of (x :: l)))))).
  rewrite slice_is, somes_iff, (all_iff _ keep); [split; [intros A; split; [discriminate|exact A]|tauto]|].
  intros z I. apply H; [rewrite Forall_forall in Wl; apply Wl, I|]. cbn [below] in E. apply list_all_Forall in E. rewrite Forall_forall in E. apply E, I.
Qed.
Lemma checked_iff t x omit : wt t x -> same x -> checked_back (back_of x) t omit = Some x <-> (omit = true -> empty_value (kval (keeps_of x)) = false) /\ keeps (keeps_of x) t omit.
Proof.
  intros W S. unfold checked_back. rewrite back_val, keep_val, <- (S t omit W). destruct omit; cbn [andb]; [|split; [split; [discriminate|assumption]|tauto]].
  destruct (empty_value x) eqn:E; [split; [discriminate|intros (Q & _); specialize (Q eq_refl); discriminate]|split; auto]. tauto.
Qed.
Lemma plain_same v t omit : below same v -> marshaler t = MNone -> wt t v -> bback (back_of v) t omit = Some v <-> keeps (keeps_of v) t omit.
Proof.
  intros B M W. destruct v as [s|z|b|f|[x|]|[l|]|vs].
  - cbn [back_of keeps_of bback keeps]. unfold back_value, value_keeps. rewrite M, some_is, str_is. reflexivity.
  - cbn [back_of keeps_of bback keeps]. unfold back_value, value_keeps. rewrite M. tauto.
  - cbn [back_of keeps_of bback keeps]. unfold back_value, value_keeps. rewrite M. tauto.
  - cbn [back_of keeps_of bback keeps]. unfold back_value, value_keeps. rewrite M. tauto.
  - cbn [back_of keeps_of bback keeps]. unfold back_value, value_keeps. cbn [below] in B. cbn [wt] in W. destruct (kind_of t) as [| | | |t'|t'|fs|] eqn:K; try contradiction.
    assert (El : elem_ty t = t') by (unfold elem_ty; rewrite K; reflexivity).
    rewrite El, <- (everywhere_here _ _ B t' omit W). destruct (bback (back_of x) t' omit) as [y|]; cbn [option_map]; [|split; discriminate].
    unfold some_ptr. rewrite !some_is, ptr_is. reflexivity.
  - cbn. tauto || (split; [discriminate|contradiction]).
  - cbn [back_of keeps_of bback keeps]. unfold back_value, value_keeps. rewrite M. cbn [below] in B. cbn [wt] in W. destruct (kind_of t) as [| | | |t'|t'|fs|] eqn:K; try contradiction.
    assert (El : elem_ty t = t') by (unfold elem_ty; rewrite K; reflexivity). rewrite El.
    assert (All : somes (fun n => checked_back n t' omit) (map back_of l) = l <-> list_all (fun n => (omit = true -> empty_value (kval n) = false) /\ keeps n t' omit) (map keeps_of l)).
    { rewrite (somes_iff back_of). apply all_iff. intros x I. apply list_all_Forall in W, B. rewrite Forall_forall in W, B. apply checked_iff; [apply W, I|apply everywhere_here, B, I]. }
    rewrite <- All. destruct (somes (fun n => checked_back n t' omit) (map back_of l)) as [|y ys] eqn:Es.
    + split; [discriminate|]. intros (N & <-). exfalso. apply N. reflexivity.
    + rewrite slice_is. split; [intros <-; split; [discriminate|reflexivity]|tauto].
  - cbn [back_of keeps_of bback keeps]. unfold back_value, value_keeps. rewrite M. cbn. split; [discriminate|tauto].
  - pose proof W as W0. cbn [wt] in W. destruct (kind_of t) as [| | | |t'|t'|fs|] eqn:K; try contradiction. cbn [back_of keeps_of bback keeps]. unfold back_value, value_keeps. rewrite M.
    unfold fields_of. rewrite K, struct_is. apply (fields_iff t); assumption.
Qed.
Lemma method_same n m v omit : In (n, m) xml_methods -> below same v -> wt (TRef n) v -> bback (back_of v) (TRef n) omit = Some v <-> keeps (keeps_of v) (TRef n) omit.
Proof.
  intros I B W. unfold xml_methods in I. cbn [In] in I.
  repeat (destruct I as [I|I]; [injection I as <- <-|]); [..|destruct I].
  all: try (apply (struct_case _ fields_Copyright); [reflexivity|discriminate|exact B| |exact W]; intros vs Bs _ Z; apply keep_copyright; assumption).
  all: try (apply (struct_case _ fields_Dependency); [reflexivity|discriminate|exact B| |exact W]; intros vs Bs _ Z; apply keep_dependency; assumption).
  all: try (apply (struct_case _ fields_MLDatasetChoice); [reflexivity|discriminate|exact B| |exact W]; intros vs Bs _ Z; apply keep_dataset; assumption).
  all: try (apply (struct_case _ fields_CertificateState); [reflexivity|discriminate|exact B| |exact W]; intros vs Bs _ Z; apply keep_state; assumption).
  all: try (apply (struct_case _ fields_CertificateExtension); [reflexivity|discriminate|exact B| |exact W]; intros vs Bs _ Z; apply keep_extension; assumption).
  all: try (apply (struct_case _ fields_AsserterChoice); [reflexivity|discriminate|exact B| |exact W]; intros vs Bs _ Z; apply keep_asserter; assumption).
  all: try (apply (struct_case _ fields_ToolsChoice); [reflexivity|discriminate|exact B| |exact W]; intros vs Bs _ Z; apply keep_tools; assumption).
  all: try (apply (struct_case _ fields_Evidence); [reflexivity|discriminate|exact B| |exact W]; intros vs Bs _ Z; apply keep_evidence; assumption).
  all: try (apply (struct_case _ fields_DataClassification); [reflexivity|discriminate|exact B| |exact W]; intros vs Bs _ Z; apply keep_data; assumption).
  all: try (apply (struct_case _ fields_Definitions); [reflexivity|discriminate|exact B| |exact W]; intros vs Bs _ Z; apply keep_definitions; assumption).
  all: try (apply (struct_case _ fields_IKEv2Auth); [reflexivity|discriminate|exact B| |exact W]; intros vs Bs Wv Z; apply (keep_ikev2 "IKEv2Auth"); [reflexivity|reflexivity|assumption|exact Wv|exact Z]).
  all: try (apply (struct_case _ fields_IKEv2Enc); [reflexivity|discriminate|exact B| |exact W]; intros vs Bs Wv Z; apply (keep_ikev2 "IKEv2Enc"); [reflexivity|reflexivity|assumption|exact Wv|exact Z]).
  all: try (apply (struct_case _ fields_IKEv2Integ); [reflexivity|discriminate|exact B| |exact W]; intros vs Bs Wv Z; apply (keep_ikev2 "IKEv2Integ"); [reflexivity|reflexivity|assumption|exact Wv|exact Z]).
  all: try (apply (struct_case _ fields_IKEv2Ke); [reflexivity|discriminate|exact B| |exact W]; intros vs Bs Wv Z; apply (keep_ikev2 "IKEv2Ke"); [reflexivity|reflexivity|assumption|exact Wv|exact Z]).
  all: try (apply (struct_case _ fields_IKEv2Prf); [reflexivity|discriminate|exact B| |exact W]; intros vs Bs Wv Z; apply (keep_ikev2 "IKEv2Prf"); [reflexivity|reflexivity|assumption|exact Wv|exact Z]).
  - (* BOMReference *)
    destruct v as [s| | | |[x|]|[l|]|]; cbn in W; try discriminate; try contradiction.
    change (Some (VStr (xml_clean s)) = Some (VStr s) <-> good_text (VStr s)). rewrite some_is, str_is, text_iff. reflexivity.
  - (* EnvironmentVariables *)
    assert (W' : wt (TSlice (TRef "EnvironmentVariableChoice")) v) by (destruct v as [| | | |[]|[]|]; exact W).
    pose proof (slice_keeps v (TRef "EnvironmentVariableChoice") [] back_environment environment_keeps MEnvironment W') as H.
    destruct (slice_case _ _ W') as [->|(l & -> & _)]; [cbn; split; [discriminate|tauto]|].
    apply H; [exact B|apply environment_iff|intros [|] w; reflexivity|intros ns w; reflexivity].
  - (* License *)
    apply (struct_case _ fields_License); [reflexivity|discriminate|exact B| |exact W]. intros vs Bs Wv Z.
    change (Some (VStruct (back_fields fields_License (map back_of vs))) = Some (VStruct vs) <-> fields_keep fields_License (map keeps_of vs)). rewrite struct_is.
    apply (fields_iff (TRef "License")); [reflexivity|assumption..].
  - (* Licenses *)
    assert (W' : wt (TSlice (TRef "LicenseChoice")) v) by (destruct v as [| | | |[]|[]|]; exact W).
    pose proof (slice_keeps v (TRef "LicenseChoice") [] back_license_choice license_choice_keeps MLicenses W') as H.
    destruct (slice_case _ _ W') as [->|(l & -> & _)]; [cbn; split; [discriminate|tauto]|].
    apply H; [exact B|apply license_choice_iff|intros [|] w; reflexivity|intros ns w; reflexivity].
  - (* SpecVersion *)
    destruct v as [| | | |[x|]|[l|]|]; cbn in W; try discriminate; try contradiction.
    change (Some (VInt z) = Some (VInt z) <-> True). tauto.
Qed.
Theorem all_same v : everywhere same v.
Proof.
  apply val_strong. clear v. intros v B t omit W. destruct (marshaler t) eqn:M; [apply plain_same; assumption|..].
  all: destruct t as [| | | | | | |n]; try discriminate M; unfold marshaler in M; destruct (assoc n xml_methods) as [m|] eqn:A; [|discriminate M]; apply (method_same n m); [apply assoc_methods, A|assumption..].
Qed.
