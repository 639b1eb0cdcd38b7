(** What JSON decoding gives is of the right type, from any document into any value. *)
From Verif Require Import Base Types Univ TypeTable Wt ReifyBase Reify ReifyFacts Consts LinkModel Version ConvertModel ConvertSpec VersionProofs Numbers NumbersProofs JsonModel JsonBack JsonProofs JsonRound JsonSpec JsonDecode JsonBom JsonAgain.
From Coq Require Import Lia.
Local Open Scope string_scope.
Lemma wt_zero t : kind_of t <> KBad -> wt t (zero_of t).
Proof. intros K. apply fit_wt, fit_zero, K. Qed.
(** ** Decoders that give values of the right type *)
Definition keeps (d : decoder) : Prop := forall t cur v e, wk t = true -> wt t cur -> d t cur = DVal v e -> wt t v.
Definition shape_keeps (s : shape) : Prop :=
  match s with
  | SArr ds => Forall keeps ds
  | SObj ms => Forall (fun m => keeps (m_dec (snd m))) ms
  | _ => True
  end.


Definition wts (vs : list val) (fs : list field) : Prop := zip_all (fun f x => wt (f_ty f) x) vs fs.
Definition wks (fs : list field) : Prop := Forall (fun f => wk (f_ty f) = true) fs.

Lemma members_keep ms : Forall (fun m => keeps (m_dec (snd m))) ms -> forall fs cur vs e,
  wks fs -> wts cur fs -> dec_members ms fs cur = inl (vs, e) -> wts vs fs.
Proof.
  induction 1 as [|[k m] ms Km _ IH]; intros fs cur vs e Kf W E; cbn [dec_members] in E.
  - injection E as <- <-. exact W.
  - destruct (find_field fs k) as [i|]; [|eapply IH; eassumption].
    destruct (nth_error fs i) as [f|] eqn:Nf; [|eapply IH; eassumption].
    destruct (nth_error cur i) as [c|] eqn:Nc; [|eapply IH; eassumption].
    destruct (m_dec m (f_ty f) c) as [v err|e'] eqn:D; [|discriminate].
    destruct (dec_members ms fs (set_nth i v cur)) as [[vs' err']|e'] eqn:E'; [|discriminate]. injection E as <- <-.
    eapply IH; [exact Kf| |exact E'].
    eapply zip_set; [exact W|exact Nf|]. cbn [snd] in Km. eapply Km; [|eapply (zip_nth (fun f x => wt (f_ty f) x)); eassumption|exact D].
    unfold wks in Kf. rewrite Forall_forall in Kf. apply Kf. eapply nth_error_In, Nf.
Qed.
Lemma struct_keep s fs cur vs e : shape_keeps s -> wks fs -> wts cur fs -> dec_struct s fs cur = inl (vs, e) -> wts vs fs.
Proof.
  intros S K W E. destruct s; cbn [dec_struct] in E; try (injection E as <- <-; exact W).
  eapply members_keep; eassumption.
Qed.
Lemma elements_keep ds t : Forall keeps ds -> wk t = true -> forall cur l e, Forall (wt t) cur ->
  dec_elements ds t cur = inl (l, e) -> list_all (wt t) l.
Proof.
  intros K W. induction K as [|d ds Kd _ IH]; intros cur l e F E; cbn [dec_elements] in E.
  - injection E as <- <-. exact I.
  - destruct (d t (hd (zero_of t) cur)) as [v err|] eqn:D; [|discriminate].
    destruct (dec_elements ds t (tl cur)) as [[l' err']|] eqn:E'; [|discriminate]. injection E as <- <-. split.
    + eapply Kd; [exact W| |exact D]. destruct cur as [|c cur]; cbn [hd]; [apply wt_zero, wk_kind, W|]. inversion F; assumption.
    + eapply IH; [|exact E']. destruct cur; cbn [tl]; [constructor|]. inversion F; assumption.
Qed.

Lemma plain_keeps s : shape_keeps s -> forall t cur v e, wk t = true -> marshal_hook t <> HSpecVersion -> (forall t', t <> TPtr t') -> wt t cur -> plain s t cur = DVal v e -> wt t v.
Proof.
  intros S t cur v e W H NP F E. unfold plain in E. destruct (kind_of t) as [| | | |t'|t'|fs|] eqn:K.
  1-6,8: destruct s; try (injection E as <- <-; exact F); try (injection E as <- <-; cbn [wt]; rewrite K; auto; fail).
  - destruct (atoi lit) as [z|] eqn:A; injection E as <- <-; [|exact F]. exact K.
  - destruct (parse_float (match t with TF32 => true | _ => false end) lit) as [f|] eqn:A; injection E as <- <-; [exact K|exact F].
  - destruct (dec_elements ds t' (list_of_slice cur)) as [[l err]|] eqn:D; [|discriminate]. injection E as <- <-.
    cbn [wt]. rewrite K. eapply elements_keep; [exact S|eapply wk_slice; eassumption| |exact D].
    destruct cur as [| | | | |[l0|]|]; try constructor. cbn [list_of_slice]. cbn [wt] in F. rewrite K in F. apply list_all_forall, F.
  - destruct (dec_struct s fs (fields_of_val cur)) as [[vs err]|] eqn:D; [|discriminate]. injection E as <- <-.
    cbn [wt]. rewrite K. eapply struct_keep; [exact S|eapply wk_struct, K| |exact D].
    destruct cur as [| | | | | |l]; cbn [wt] in F; rewrite K in F; try contradiction; try discriminate; try (destruct F as (F & _); discriminate F). exact F.
Qed.

(** ** The UnmarshalJSON methods *)
Lemma into_wt s t v : shape_keeps s -> wk t = true -> marshal_hook t <> HSpecVersion -> (forall t', t <> TPtr t') -> unmarshal_into s t = Ok v -> wt t v.
Proof.
  intros S W H NP E. unfold unmarshal_into, finish in E. destruct (plain s t (zero_of t)) as [v' [e|]|] eqn:P; try discriminate. injection E as <-.
  eapply plain_keeps; [exact S|exact W|exact H|exact NP|apply wt_zero, wk_kind, W|exact P].
Qed.
Lemma wt_ptr t v : wt t v -> wt (TPtr t) (some_ptr v).
Proof. trivial. Qed.
Lemma wt_nil t : wt (TPtr t) (VPtr None).
Proof. exact I. Qed.



Ltac fields F := 
  repeat match type of F with
         | zip_all _ ?vs (_ :: _) => destruct vs as [|? ?]; [contradiction|]; let G := fresh "F" in destruct F as (G & F); cbn [f_ty] in G
         | zip_all _ ?vs [] => destruct vs as [|? ?]; [|contradiction]
         end.

Lemma unmarshal_keeps t h fs s cur v : hooked_type t h fs -> h <> HLicense -> shape_keeps s -> wts cur fs ->
  unmarshal h s t cur = Ok v -> wt t v.
Proof.
  intros T NL S F E.
  assert (IK : h = HIKEv2 -> forall f rest, fs = f :: rest -> f_ty f = TRef "BOMReference" -> wt t v).
  { intros -> f rest Q Qt. rewrite Q in F. destruct cur as [|r cur]; [contradiction|]. 
    pose proof (hooked_kind _ _ _ T) as K.
    assert (P : finish (plain s t (VStruct (r :: cur))) = Ok v -> wt t v).
    { intros P. apply finish_ok in P. eapply plain_keeps; [exact S|destruct T; reflexivity|destruct T; discriminate|destruct T; discriminate| |exact P].
      cbn [wt]. rewrite K, Q. exact F. }
    cbn [unmarshal] in E. destruct s; try (apply P, E; fail). injection E as <-. cbn [wt]. rewrite K, Q. destruct F as (_ & F).
    split; [rewrite Qt; reflexivity|exact F]. }
  destruct T; try contradiction; try (eapply IK; reflexivity); clear IK.
  - unfold wts, fields_EnvironmentVariableChoice in F. fields F. cbn [unmarshal] in E.
    destruct (plain s (TRef "Property") (zero_of (TRef "Property"))) as [p err|] eqn:P; [|discriminate].
    assert (Fp : wt (TRef "Property") p) by (eapply plain_keeps; [exact S|reflexivity|discriminate|discriminate| |exact P]; apply wt_zero; discriminate).
    assert (G : (if negb (zero_value p) then Ok (VStruct [some_ptr p; v1])
                 else match plain s TStr (VStr "") with
                      | DAbort e => Err e
                      | DVal v err' => match err' with None | Some (EType "object") => Ok (VStruct [v0; v]) | Some e => Err e end
                      end) = Ok v).
    { destruct err as [e|]; [|exact E]. destruct e; try discriminate E.
      repeat (match type of E with context [match ?x with _ => _ end] => destruct x end; try discriminate E; try exact E). }
    clear E. destruct (negb (zero_value p)).
    + injection G as <-. cbn [wt kind_of assoc]. exact (conj Fp (conj F1 I)).
    + destruct (plain s TStr (VStr "")) as [w err'|] eqn:Q; [|discriminate].
      assert (Fw : wt TStr w) by (eapply plain_keeps; [exact S|reflexivity|discriminate|discriminate| |exact Q]; reflexivity).
      assert (R : VStruct [v0; w] = v).
      { destruct err' as [e|]; [|congruence]. destruct e; try discriminate G.
        repeat (match type of G with context [match ?x with _ => _ end] => destruct x end; try discriminate G; try congruence). }
      subst v. exact (conj F0 (conj Fw I)).
  - unfold wts, fields_MLDatasetChoice in F. fields F. cbn [unmarshal] in E. apply bind_ok in E as (r & Er & E).
    apply into_wt in Er; [|exact S|reflexivity|discriminate|discriminate].
    destruct r as [| | | | | |[|[x| | | | | |] [|? ?]]]; try discriminate E. destruct Er as (Fx & _). cbn [f_ty] in Fx.
    destruct (negb (String.eqb x "")); [injection E as <-; exact (conj Fx (conj F1 I))|].
    apply bind_ok in E as (d & Ed & E). apply into_wt in Ed; [|exact S|reflexivity|discriminate|discriminate]. injection E as <-.
    destruct (zero_value d); [exact (conj F0 (conj F1 I))|exact (conj F0 (conj Ed I))].
  - cbn [unmarshal] in E. destruct (unmarshal_into s (TRef "toolsChoiceJSON")) as [r|e] eqn:Er.
    + apply into_wt in Er; [|exact S|reflexivity|discriminate|discriminate].
      destruct r as [| | | | | |[|a [|b [|c l]]]]; try discriminate E.
      destruct (nonnil a || nonnil b)%bool; injection E as <-; [|exact F].
      destruct Er as (Fa & Fb & _). exact (conj I (conj Fa (conj Fb I))).
    + assert (G : bind (unmarshal_into s (TSlice (TRef "Tool"))) (fun l => Ok (VStruct [some_ptr l; VPtr None; VPtr None])) = Ok v).
      { destruct e; try discriminate E. repeat (match type of E with context [match ?x with _ => _ end] => destruct x end; try discriminate E; try exact E). }
      apply bind_ok in G as (l & El & G). apply into_wt in El; [|exact S|reflexivity|discriminate|discriminate]. injection G as <-.
      exact (conj El (conj I (conj I I))).
  - unfold wts, fields_EvidenceIdentityChoice in F. fields F. cbn [unmarshal] in E.
    assert (G : bind (unmarshal_into s (TRef "EvidenceIdentity")) (fun x => Ok (VStruct [some_ptr x; v1])) = Ok v -> wt (TRef "EvidenceIdentityChoice") v).
    { intros G. apply bind_ok in G as (l & El & G). apply into_wt in El; [|exact S|reflexivity|discriminate|discriminate]. injection G as <-.
      exact (conj El (conj F1 I)). }
    destruct s; try (apply G, E; fail). apply bind_ok in E as (l & El & E). apply into_wt in El; [|exact S|reflexivity|discriminate|discriminate]. injection E as <-.
    exact (conj F0 (conj El I)).
  - unfold wts, fields_CertificateState in F. fields F. cbn [unmarshal] in E. apply bind_ok in E as (x & _ & E).
    destruct (negb (String.eqb x "")); apply bind_ok in E as (d & Ed & E); (apply into_wt in Ed; [|exact S|reflexivity|discriminate|discriminate]); injection E as <-;
      [exact (conj Ed (conj F1 I))|exact (conj F0 (conj Ed I))].
  - unfold wts, fields_CertificateExtension in F. fields F. cbn [unmarshal] in E. apply bind_ok in E as (x & _ & E).
    destruct (negb (String.eqb x "")); apply bind_ok in E as (d & Ed & E); (apply into_wt in Ed; [|exact S|reflexivity|discriminate|discriminate]); injection E as <-;
      [exact (conj Ed (conj F1 I))|exact (conj F0 (conj Ed I))].
  - unfold wts, fields_AsserterChoice in F. fields F. cbn [unmarshal] in E. destruct s as [|b|lit|x|ds|ms]; try discriminate E.
    + injection E as <-. exact (conj F0 (conj F1 (conj F2 I))).
    + assert (R : forall d, In (Some d) (dec_raw ms [None; None; None]) -> keeps d).
      { intros d Hd. apply raw_in in Hd as [[|[|[|[]]]]|(k & m & Hm & -> & _)]; try discriminate. cbn [shape_keeps] in S. rewrite Forall_forall in S. exact (S _ Hm). }
      destruct (dec_raw ms [None; None; None]) as [|a [|b [|c [|? ?]]]]; try (destruct a; try destruct b; try destruct c); try discriminate E;
        try (injection E as <-; exact (conj F0 (conj F1 (conj F2 I))));
        apply bind_ok in E as (w & Ew & E); apply finish_ok in Ew; injection E as <-.
      all: match type of Ew with ?d _ _ = _ => assert (Kd : keeps d) by (apply R; cbn; auto) end.
      all: eapply Kd in Ew; [|reflexivity|first [apply wt_zero; discriminate|reflexivity]].
      all: first [exact (conj Ew (conj F1 (conj F2 I)))|exact (conj F0 (conj Ew (conj F2 I)))|exact (conj F0 (conj F1 (conj Ew I)))].
  - unfold wts, fields_PatentChoice in F. fields F. cbn [unmarshal] in E. apply bind_ok in E as (x & _ & E).
    destruct (negb (String.eqb x "")); apply bind_ok in E as (d & Ed & E); (apply into_wt in Ed; [|exact S|reflexivity|discriminate|discriminate]); injection E as <-;
      [exact (conj F0 (conj Ed I))|exact (conj Ed (conj F1 I))].
Qed.


Lemma node_keeps s : shape_keeps s -> keeps (node s).
Proof.
  intros S t. induction t; intros cur v e W F E.
  1-5: rewrite node_plain in E; [|discriminate|reflexivity]; eapply plain_keeps; [exact S|exact W|discriminate|discriminate|exact F|exact E].
  - cbn [node] in E. cbn [wk] in W.
    assert (G : match node s t (match cur with VPtr (Some x) => x | _ => zero_of t end) with DVal v err => DVal (some_ptr v) err | DAbort e => DAbort e end = DVal v e -> wt (TPtr t) v).
    { intros G. destruct (node s t _) as [v' err|] eqn:N; [|discriminate]. injection G as <- <-.
      eapply (IHt _ _ _ W); [|exact N]. destruct cur as [| | | |[x|]| |]; try (apply wt_zero, wk_kind, W). exact F. }
    destruct s; try (apply G, E; fail). injection E as <- <-. exact I.
  - rewrite node_plain in E; [|discriminate|reflexivity]; eapply plain_keeps; [exact S|exact W|discriminate|discriminate|exact F|exact E].
  - destruct (hook_cases (TRef name)) as [H|[[= ->]|(h & fs & H)]].
    + rewrite node_plain in E; [|discriminate|apply unhooked, H]. eapply plain_keeps; [exact S|exact W|rewrite H; discriminate|discriminate|exact F|exact E].
    + change (node s (TRef "SpecVersion") cur) with
        (match finish (plain s TStr (VStr "")) with
          | Ok (VStr x) => match parse_spec_version x with Some z => DVal (VInt z) None | None => DAbort EInvalidSpecVersion end
          | Ok _ => DAbort ESyntax
          | Err e => DAbort e
          end) in E.
      destruct (finish (plain s TStr (VStr ""))) as [[x| | | | | |]|]; try discriminate E.
      destruct (parse_spec_version x) as [z|] eqn:P; [|discriminate]. injection E as <- <-. reflexivity.
    + assert (D : h = HLicense \/ h <> HLicense) by (destruct h; auto; right; discriminate). destruct D as [->|D].
      * rewrite node_plain in E; [|discriminate|unfold unmarshal_hook; rewrite (hooked_marshal _ _ _ H); reflexivity].
        eapply plain_keeps; [exact S|exact W|rewrite (hooked_marshal _ _ _ H); discriminate|discriminate|exact F|exact E].
      * rewrite (hooked_node _ _ _ _ _ H D) in E. destruct (unmarshal h s (TRef name) (fields_of_val cur)) as [v'|] eqn:U; [|discriminate].
        injection E as <- <-. eapply unmarshal_keeps; [exact H|exact D|exact S| |exact U].
        pose proof (hooked_kind _ _ _ H) as K. destruct cur as [| | | | | |l]; cbn [wt] in F; rewrite K in F; try contradiction; try discriminate; try (destruct F as (F & _); discriminate F). exact F.
Qed.

Lemma jdec_typed j : keeps (jdec j).
Proof.
  induction j as [| | | |l IH|ms IH] using json_induction; rewrite jdec_eq; apply node_keeps; cbn [shape_of shape_keeps]; trivial.
  - rewrite Forall_map. exact IH.
  - rewrite Forall_map. cbn [snd m_dec]. exact IH.
Qed.
Lemma decoded_again j b c : doc_unique j -> bom_of_json j b = Ok c -> bom_of_json j c = Ok c.
Proof.
  intros N H. unfold bom_of_json in *. destruct (too_deep j); [discriminate|]. apply bind_inv in H as (v & V & Q). injection Q as <-. apply finish_ok in V.
  rewrite (vni_BOM v) by (eapply (jdec_typed j); [exact bom_wk|apply typed_BOM|exact V]). rewrite (jdec_again j N _ _ _ V). reflexivity.
Qed.
