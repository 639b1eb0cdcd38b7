(** Whether decoding succeeds, and with which error it fails, does not depend on what the
    BOM holds: for C39. *)
From Verif Require Import Base Types Univ TypeTable Wt ReifyBase Reify ReifyFacts Consts LinkModel Version ConvertSpec Numbers JsonModel JsonBack JsonProofs JsonRound JsonDecode JsonBom.
From Coq Require Import Lia.
Local Open Scope string_scope.

(** Values with as many fields as the decoders count on. Decoders that replace the fields
    of a type, [ready], ask for their number only. *)
Section Sized.
  Variables (ready : ty -> option (nat -> Prop)) (lists : bool).
  Fixpoint sized (t : ty) (v : val) {struct v} : Prop :=
    match v with
    | VPtr (Some x) => match kind_of t with KPtr t' => sized t' x | KStruct _ => False | _ => True end
    | VSlice (Some l) => match kind_of t with KSlice t' => if lists then list_all (sized t') l else True | KStruct _ => False | _ => True end
    | VStruct vs => match kind_of t with
                    | KStruct fs => match ready t with
                                    | Some P => P (length vs)
                                    | None => zip_all (fun f x => sized (f_ty f) x) vs fs
                                    end
                    | _ => True
                    end
    | _ => match kind_of t with KStruct _ => False | _ => True end
    end.
  Hypothesis Hready : forall t P fs, ready t = Some P -> kind_of t = KStruct fs -> P (length fs).
  Lemma wt_sized v : forall t, wt t v -> sized t v.
  Proof.
    induction v as [s|z|b|f| |x IH| |l IH|vs IH] using val_induction; intros t W; cbn [sized wt] in *.
    1-5,7: destruct (kind_of t); try exact I; try discriminate W; try contradiction W.
    - destruct (kind_of t); try contradiction W; try exact I. apply IH, W.
    - destruct (kind_of t); try contradiction W; try exact I. destruct lists; [|exact I]. apply list_all_forall. apply list_all_forall in W. 
      rewrite Forall_forall in *. auto.
    - destruct (kind_of t) as [| | | | | |fs|] eqn:K; try contradiction W; try exact I. destruct (ready t) as [P|] eqn:R.
      + assert (L : length vs = length fs).
        { clear -W. revert fs W. induction vs as [|v vs IHv]; intros [|f fs] W; cbn in W; try contradiction; [reflexivity|]. cbn [length]. f_equal. apply IHv, W. }
        rewrite L. eapply Hready; eassumption.
      + clear -IH W. revert fs W. induction IH as [|v vs Hv _ IH]; intros [|f fs] W; cbn in W |- *; try contradiction; [exact I|].
        destruct W as (W1 & W2). split; [apply Hv, W1|apply IH, W2].
  Qed.
  Lemma zero_sized t : wk t = true -> sized t (zero_of t).
  Proof. intros W. apply wt_sized, fit_wt, fit_zero, wk_kind, W. Qed.
  Lemma scalar_sized t v : (forall fs, kind_of t <> KStruct fs) -> (forall t', kind_of t <> KPtr t') -> (forall t', kind_of t <> KSlice t') -> sized t v.
  Proof. intros S P L. destruct v as [s|z|b|f|[x|]|[l|]|vs]; cbn [sized]; destruct (kind_of t) eqn:K; try exact I; exfalso; first [eapply S; reflexivity|eapply P; reflexivity|eapply L; reflexivity]. Qed.
  Lemma sized_struct t fs v : kind_of t = KStruct fs -> sized t v -> exists vs, v = VStruct vs /\ match ready t with Some P => P (length vs) | None => zip_all (fun f x => sized (f_ty f) x) vs fs end.
  Proof. intros K S. destruct v as [s|z|b|f|[x|]|[l|]|vs]; cbn [sized] in S; rewrite K in S; try contradiction. exists vs. auto. Qed.
  Lemma sized_fields t fs vs : kind_of t = KStruct fs -> match ready t with Some P => P (length vs) | None => zip_all (fun f x => sized (f_ty f) x) vs fs end -> sized t (VStruct vs).
  Proof. intros K S. cbn [sized]. rewrite K. exact S. Qed.
End Sized.

(** ** JSON *)
Definition replaced (t : ty) : option (nat -> Prop) :=
  match unmarshal_hook t with
  | HNone | HIKEv2 | HSpecVersion | HLicense => None
  | _ => match kind_of t with KStruct fs => Some (eq (length fs)) | _ => None end
  end.
Lemma replaced_ready t P fs : replaced t = Some P -> kind_of t = KStruct fs -> P (length fs).
Proof. unfold replaced. intros R K. rewrite K in R. destruct (unmarshal_hook t); try discriminate R; injection R as <-; reflexivity. Qed.
Definition jsized : ty -> val -> Prop := sized replaced true.
Definition jsizes (vs : list val) (fs : list field) : Prop := zip_all (fun f x => jsized (f_ty f) x) vs fs.

Definition same_res (t : ty) (r1 r2 : dres) : Prop :=
  match r1, r2 with
  | DVal v1 e1, DVal v2 e2 => e1 = e2 /\ jsized t v1 /\ jsized t v2
  | DAbort e1, DAbort e2 => e1 = e2
  | _, _ => False
  end.
Definition jsame (d : decoder) : Prop := forall t c1 c2, wk t = true -> jsized t c1 -> jsized t c2 -> same_res t (d t c1) (d t c2).
Definition shape_same (s : shape) : Prop :=
  match s with
  | SArr ds => Forall jsame ds
  | SObj ms => Forall (fun m => jsame (m_dec (snd m))) ms
  | _ => True
  end.
Definition same_lists (P : list val -> Prop) (r1 r2 : (list val * option jerr) + jerr) : Prop :=
  match r1, r2 with
  | inl (l1, e1), inl (l2, e2) => e1 = e2 /\ P l1 /\ P l2
  | inr e1, inr e2 => e1 = e2
  | _, _ => False
  end.
Lemma zip_some {B} (P : field -> B -> Prop) : forall (vs : list B) fs i f, zip_all P vs fs -> nth_error fs i = Some f -> exists x, nth_error vs i = Some x /\ P f x.
Proof.
  induction vs as [|v vs IH]; intros [|g fs] i f W N; cbn in W; try contradiction; [destruct i; discriminate|].
  destruct W as (W1 & W2). destruct i as [|i]; cbn [nth_error] in *; [injection N as ->; exists v; auto|eapply IH; eassumption].
Qed.
Lemma members_same ms : Forall (fun m => jsame (m_dec (snd m))) ms -> forall fs c1 c2, wks fs -> jsizes c1 fs -> jsizes c2 fs ->
  same_lists (fun vs => jsizes vs fs) (dec_members ms fs c1) (dec_members ms fs c2).
Proof.
  induction 1 as [|[k m] ms Km _ IH]; intros fs c1 c2 Kf S1 S2; cbn [dec_members]; [cbn; auto|].
  destruct (find_field fs k) as [i|]; [|apply IH; assumption].
  destruct (nth_error fs i) as [f|] eqn:Nf; [|apply IH; assumption].
  destruct (zip_some _ _ _ _ _ S1 Nf) as (x1 & N1 & X1). destruct (zip_some _ _ _ _ _ S2 Nf) as (x2 & N2 & X2). rewrite N1, N2.
  assert (W : wk (f_ty f) = true) by (unfold wks in Kf; rewrite Forall_forall in Kf; apply Kf; eapply nth_error_In, Nf).
  specialize (Km (f_ty f) x1 x2 W X1 X2). cbn [snd] in Km. unfold same_res in Km.
  destruct (m_dec m (f_ty f) x1) as [v1 e1|e1], (m_dec m (f_ty f) x2) as [v2 e2|e2]; try contradiction; [|exact Km]. destruct Km as (-> & V1 & V2).
  specialize (IH fs (set_nth i v1 c1) (set_nth i v2 c2) Kf (zip_set _ _ _ _ _ _ S1 Nf V1) (zip_set _ _ _ _ _ _ S2 Nf V2)). unfold same_lists in IH |- *.
  destruct (dec_members ms fs (set_nth i v1 c1)) as [[l1 e1']|], (dec_members ms fs (set_nth i v2 c2)) as [[l2 e2']|]; try contradiction; [|exact IH].
  destruct IH as (-> & IH). auto.
Qed.
Lemma struct_same s fs c1 c2 : shape_same s -> wks fs -> jsizes c1 fs -> jsizes c2 fs ->
  same_lists (fun vs => jsizes vs fs) (dec_struct s fs c1) (dec_struct s fs c2).
Proof. intros S K S1 S2. destruct s; cbn [dec_struct]; try (cbn; auto; fail). apply members_same; assumption. Qed.
Lemma elements_same ds t : Forall jsame ds -> wk t = true -> forall c1 c2, Forall (jsized t) c1 -> Forall (jsized t) c2 ->
  same_lists (list_all (jsized t)) (dec_elements ds t c1) (dec_elements ds t c2).
Proof.
  intros K W. induction K as [|d ds Kd _ IH]; intros c1 c2 F1 F2; cbn [dec_elements]; [cbn; auto|].
  assert (H : forall c, Forall (jsized t) c -> jsized t (hd (zero_of t) c)) by (intros [|x c] F; cbn [hd]; [apply zero_sized; [exact replaced_ready|exact W]|inversion F; assumption]).
  assert (T : forall c, Forall (jsized t) c -> Forall (jsized t) (tl c)) by (intros [|x c] F; cbn [tl]; [constructor|inversion F; assumption]).
  specialize (Kd t _ _ W (H _ F1) (H _ F2)). unfold same_res in Kd.
  destruct (d t (hd (zero_of t) c1)) as [v1 e1|e1], (d t (hd (zero_of t) c2)) as [v2 e2|e2]; try contradiction; [|exact Kd]. destruct Kd as (-> & V1 & V2).
  specialize (IH _ _ (T _ F1) (T _ F2)). unfold same_lists in IH |- *.
  destruct (dec_elements ds t (tl c1)) as [[l1 e1']|], (dec_elements ds t (tl c2)) as [[l2 e2']|]; try contradiction; [|exact IH].
  destruct IH as (-> & L1 & L2). cbn. auto.
Qed.

Lemma plain_same s : shape_same s -> forall t c1 c2, wk t = true -> replaced t = None -> jsized t c1 -> jsized t c2 -> same_res t (plain s t c1) (plain s t c2).
Proof.
  intros S t c1 c2 W R S1 S2. unfold plain. destruct (kind_of t) as [| | | |t'|t'|fs|] eqn:K.
  1-6,8: destruct s; try (cbn [same_res]; repeat split; try assumption; unfold jsized; cbn [sized]; rewrite K; exact I).
  - destruct (atoi lit); cbn [same_res]; repeat split; try assumption; unfold jsized; cbn [sized]; rewrite K; exact I.
  - destruct (parse_float _ lit); cbn [same_res]; repeat split; try assumption; unfold jsized; cbn [sized]; rewrite K; exact I.
  - assert (F : forall c, jsized t c -> Forall (jsized t') (list_of_slice c)).
    { intros [| | | | |[l|]|] Q; cbn [list_of_slice]; try constructor. unfold jsized in Q. cbn [sized] in Q. rewrite K in Q. apply list_all_forall, Q. }
    pose proof (elements_same ds t' S (wk_slice _ _ W K) _ _ (F _ S1) (F _ S2)) as E. unfold same_lists in E.
    destruct (dec_elements ds t' (list_of_slice c1)) as [[l1 e1]|], (dec_elements ds t' (list_of_slice c2)) as [[l2 e2]|]; try contradiction; [|exact E].
    destruct E as (-> & L1 & L2). cbn [same_res]. unfold jsized. cbn [sized]. rewrite K. auto.
  - destruct (sized_struct _ _ _ _ _ K S1) as (v1 & -> & Z1). destruct (sized_struct _ _ _ _ _ K S2) as (v2 & -> & Z2). rewrite R in Z1, Z2. cbn [fields_of_val].
    pose proof (struct_same s fs v1 v2 S (wk_struct _ _ K) Z1 Z2) as E. unfold same_lists in E.
    destruct (dec_struct s fs v1) as [[l1 e1]|], (dec_struct s fs v2) as [[l2 e2]|]; try contradiction; [|exact E].
    destruct E as (-> & L1 & L2). cbn [same_res]. unfold jsized. cbn [sized]. rewrite K, R. auto.
Qed.

Definition same_out (t : ty) (r1 r2 : result jerr val) : Prop :=
  match r1, r2 with
  | Ok v1, Ok v2 => jsized t v1 /\ jsized t v2
  | Err e1, Err e2 => e1 = e2
  | _, _ => False
  end.

Lemma finish_same t r1 r2 : same_res t r1 r2 -> same_out t (finish r1) (finish r2).
Proof.
  destruct r1 as [v1 [e1|]|e1], r2 as [v2 [e2|]|e2]; cbn [same_res finish same_out]; try contradiction; try (intros (Q & _); congruence); try (intros (_ & Q); exact Q); trivial.
Qed.
Lemma hooked_same t r1 r2 : same_out t r1 r2 -> same_res t (hooked r1) (hooked r2).
Proof. destruct r1, r2; cbn [same_out hooked same_res]; try contradiction; intros H; auto. Qed.
Ltac branch :=
  match goal with
  | |- context [match ?x with _ => _ end] =>
      lazymatch x with
      | context [match _ with _ => _ end] => fail
      | _ => destruct x
      end
  end.
Lemma unmarshal_same t h fs s c1 c2 : hooked_type t h fs -> h <> HLicense -> shape_same s -> jsized t (VStruct c1) -> jsized t (VStruct c2) ->
  same_out t (unmarshal h s t c1) (unmarshal h s t c2).
Proof.
  intros T NL S S1 S2.
  assert (IK : h = HIKEv2 -> forall f rest, fs = f :: rest -> f_ty f = TRef "BOMReference" -> same_out t (unmarshal h s t c1) (unmarshal h s t c2)).
  { intros -> f rest Q Qt. pose proof (hooked_kind _ _ _ T) as K. assert (R : replaced t = None) by (inversion T; subst; reflexivity).
    assert (W : wk t = true) by (inversion T; subst; reflexivity).
    pose proof (finish_same _ _ _ (plain_same s S t _ _ W R S1 S2)) as P.
    unfold jsized in S1, S2. cbn [sized] in S1, S2. rewrite K, R, Q in S1, S2.
    destruct c1 as [|r1 c1]; [contradiction|]. destruct c2 as [|r2 c2]; [contradiction|]. cbn [unmarshal].
    destruct s; try exact P. cbn [same_out]. unfold jsized. cbn [sized]. rewrite K, R, Q. destruct S1 as (_ & S1), S2 as (_ & S2).
    split; (split; [rewrite Qt; reflexivity|assumption]). }
  destruct T; try contradiction; try (eapply IK; reflexivity); clear IK NL.
  all: unfold jsized in S1, S2; vm_compute in S1, S2.
  all: repeat (destruct c1 as [|? c1]; try discriminate S1; destruct c2 as [|? c2]; try discriminate S2).
  all: clear S1 S2; cbn [unmarshal].
  all: unfold bind.
  all: repeat branch; cbn [same_out]; trivial; try (split; reflexivity).
Qed.
Lemma node_same s : shape_same s -> jsame (node s).
Proof.
  intros S t. induction t; intros c1 c2 W S1 S2.
  1-5: rewrite !node_plain by first [discriminate|reflexivity]; apply plain_same; [exact S|exact W|reflexivity|exact S1|exact S2].
  - cbn [node]. cbn [wk] in W.
    assert (C : forall c, jsized (TPtr t) c -> jsized t (match c with VPtr (Some x) => x | _ => zero_of t end)).
    { intros c Q. destruct c as [| | | |[x|]| |]; try (apply zero_sized; [exact replaced_ready|exact W]). exact Q. }
    specialize (IHt _ _ W (C _ S1) (C _ S2)). unfold same_res in IHt.
    destruct s; try (destruct (node _ t (match c1 with VPtr (Some x) => x | _ => zero_of t end)), (node _ t (match c2 with VPtr (Some x) => x | _ => zero_of t end)); try contradiction; exact IHt).
    cbn. auto.
  - rewrite !node_plain by first [discriminate|reflexivity]; apply plain_same; [exact S|exact W|reflexivity|exact S1|exact S2].
  - destruct (hook_cases (TRef name)) as [H|[[= ->]|(h & fs & H)]].
    + rewrite !node_plain by first [discriminate|apply unhooked, H]. apply plain_same; [exact S|exact W| |exact S1|exact S2]. unfold replaced. rewrite (unhooked _ H). reflexivity.
    + change (same_res (TRef "SpecVersion") (match finish (plain s TStr (VStr "")) with
          | Ok (VStr x) => match parse_spec_version x with Some z => DVal (VInt z) None | None => DAbort EInvalidSpecVersion end
          | Ok _ => DAbort ESyntax
          | Err e => DAbort e
          end) (match finish (plain s TStr (VStr "")) with
          | Ok (VStr x) => match parse_spec_version x with Some z => DVal (VInt z) None | None => DAbort EInvalidSpecVersion end
          | Ok _ => DAbort ESyntax
          | Err e => DAbort e
          end)).
      destruct (finish (plain s TStr (VStr ""))) as [[x| | | | | |]|]; try reflexivity. destruct (parse_spec_version x); cbn [same_res]; auto. repeat split; exact I.
    + assert (D : h = HLicense \/ h <> HLicense) by (destruct h; auto; right; discriminate). destruct D as [->|D].
      * assert (U : unmarshal_hook (TRef name) = HNone) by (unfold unmarshal_hook; rewrite (hooked_marshal _ _ _ H); reflexivity).
        rewrite !node_plain by first [discriminate|exact U]. apply plain_same; [exact S|exact W| |exact S1|exact S2]. unfold replaced. rewrite U. reflexivity.
      * rewrite !(hooked_node _ _ _ _ _ H D). apply hooked_same. pose proof (hooked_kind _ _ _ H) as K.
        destruct (sized_struct _ _ _ _ _ K S1) as (v1 & -> & _). destruct (sized_struct _ _ _ _ _ K S2) as (v2 & -> & _). cbn [fields_of_val].
        eapply unmarshal_same; eassumption.
Qed.
Lemma jdec_same j : jsame (jdec j).
Proof.
  induction j as [| | | |l IH|ms IH] using json_induction; rewrite jdec_eq; apply node_same; cbn [shape_of shape_same]; trivial.
  - rewrite Forall_map. exact IH.
  - rewrite Forall_map. cbn [snd m_dec]. exact IH.
Qed.
Theorem json_outcome j b1 b2 : match bom_of_json j b1, bom_of_json j b2 with Ok _, Ok _ => True | Err e1, Err e2 => e1 = e2 | _, _ => False end.
Proof.
  unfold bom_of_json. destruct (too_deep j); [reflexivity|].
  assert (Z : forall b, jsized (TRef "BOM") (reify_BOM b)) by (intros b; apply wt_sized; [exact replaced_ready|apply typed_BOM]).
  pose proof (finish_same _ _ _ (jdec_same j (TRef "BOM") (reify_BOM b1) (reify_BOM b2) eq_refl (Z b1) (Z b2))) as H. unfold same_out in H.
  destruct (finish (jdec j (TRef "BOM") (reify_BOM b1))), (finish (jdec j (TRef "BOM") (reify_BOM b2))); cbn [bind]; try contradiction; auto.
Qed.
