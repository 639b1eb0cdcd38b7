(** Documents that conform to a schema are decoded, if the schema fits the Go types: for
    C42. *)
From Verif Require Import Base Types Univ TypeTable Wt ReifyBase Reify ReifyFacts Consts LinkModel Version ConvertSpec Numbers NumbersProofs JsonModel JsonBack JsonProofs JsonRound JsonDecode JsonBom JsonTyped SchemaSpec.
From Coq Require Import Lia.
Local Open Scope string_scope.

(** ** Does a schema fit a type? *)

(** What remains to be shown of the definitions that are referred to, or [None] *)
Definition needed := option (list (string * ty)).
Definition both (a b : needed) : needed := match a, b with Some x, Some y => Some (x ++ y)%list | _, _ => None end.
Fixpoint base (t : ty) : ty := match t with TPtr t' => base t' | _ => t end.
Definition member_needs (need : schema -> ty -> needed) (fs : list field) (k : string) (s : schema) : needed :=
  match find_field fs k with
  | Some i => match nth_error fs i with Some f => need s (f_ty f) | None => None end
  | None => Some []
  end.
Definition members_need (need : schema -> ty -> needed) (fs : list field) : list (string * schema) -> needed :=
  fix go ms := match ms with [] => Some [] | m :: ms' => both (member_needs need fs (fst m) (snd m)) (go ms') end.
Definition all_need (need : schema -> needed) : list schema -> needed :=
  fix go l := match l with [] => Some [] | s :: l' => both (need s) (go l') end.
Fixpoint needs (s : schema) (t : ty) {struct s} : needed :=
  let t := base t in
  match s with
  | Ref n => Some [(n, t)]
  | OneOf l => all_need (fun s' => needs s' t) l
  | _ =>
      match unmarshal_hook t, s with
      | HNone, Object ms _ => match kind_of t with KStruct fs => members_need needs fs ms | _ => None end
      | HNone, ListOf s' => match kind_of t with KSlice t' => needs s' t' | _ => None end
      | HNone, (Text | Filled | Words _) => match kind_of t with KStr => Some [] | _ => None end
      | HNone, Whole => match kind_of t with KInt => Some [] | _ => None end
      | HNone, Number => match kind_of t with KFlt => Some [] | _ => None end
      | HNone, Truth => match kind_of t with KBool => Some [] | _ => None end
      | HSpecVersion, Words l => if forallb (fun x => match parse_spec_version x with Some _ => true | None => false end) l then Some [] else None
      | HTools, ListOf s' => needs s' (TRef "Tool")
      | HTools, Object ms _ => members_need needs fields_toolsChoiceJSON ms
      | HIdentity, ListOf s' => needs s' (TRef "EvidenceIdentity")
      | HIdentity, Object ms _ => members_need needs (fields_of (TRef "EvidenceIdentity")) ms
      | HDataset, Object ms _ => both (members_need needs fields_mlDatasetChoiceRefJSON ms) (members_need needs (fields_of (TRef "ComponentData")) ms)
      | HEnvironmentVariable, (Text | Filled | Words _) => Some []
      | HEnvironmentVariable, Object ms _ => members_need needs (fields_of (TRef "Property")) ms
      | HCertState, Object ms _ =>
          both (members_need needs (peek_field "State" "state") ms)
               (both (members_need needs (fields_of (TRef "PredefinedCertificateState")) ms) (members_need needs (fields_of (TRef "CustomCertificateState")) ms))
      | HCertExtension, Object ms _ =>
          both (members_need needs (peek_field "CommonExtensionName" "commonExtensionName") ms)
               (both (members_need needs (fields_of (TRef "CommonCertificateExtension")) ms) (members_need needs (fields_of (TRef "CustomCertificateExtension")) ms))
      | HPatent, Object ms _ =>
          both (members_need needs (peek_field "FamilyID" "familyId") ms)
               (both (members_need needs (fields_of (TRef "PatentFamily")) ms) (members_need needs (fields_of (TRef "Patent")) ms))
      | HAsserter, Object ms _ => if forallb (fun m => match find_field raw_fields (fst m) with None => true | _ => false end) ms then Some [] else None
      | HIKEv2, (Text | Filled | Words _) => Some []
      | HIKEv2, Object ms _ => members_need needs (fields_of t) ms
      | _, _ => None
      end
  end.

Definition pair_in (p : string * ty) (l : list (string * ty)) : bool := existsb (fun q => (String.eqb (fst p) (fst q) && ty_eqb (snd p) (snd q))%bool) l.
(** A set of definitions and types, closed under what they need *)
Definition closed (d : schemas) (R : list (string * ty)) : bool :=
  forallb (fun p => wk (snd p) && match assoc (fst p) d with
                                  | Some s => match needs s (snd p) with Some l => forallb (fun q => pair_in q R) l | None => false end
                                  | None => false
                                  end)%bool R.
Fixpoint explore (d : schemas) (fuel : nat) (todo seen : list (string * ty)) : list (string * ty) :=
  match fuel, todo with
  | S fuel', p :: todo' =>
      if pair_in p seen then explore d fuel' todo' seen
      else explore d fuel' (match assoc (fst p) d with Some s => match needs s (snd p) with Some l => l | None => [] end | None => [] end ++ todo')%list (p :: seen)
  | _, _ => seen
  end.
Definition reached (d : schemas) : list (string * ty) := explore d (N.to_nat 5000) [("", TRef "BOM")] [].
Definition suits (d : schemas) : bool := (closed d (reached d) && pair_in ("", TRef "BOM") (reached d))%bool.

(** ** It does if it says so *)
Lemma base_base t : base (base t) = base t.
Proof. induction t; cbn [base]; try reflexivity. exact IHt. Qed.
Lemma needs_base s t : needs s t = needs s (base t).
Proof. destruct s; cbn [needs]; rewrite base_base; reflexivity. Qed.
Lemma base_wk t : wk t = true -> wk (base t) = true.
Proof. induction t; cbn [base wk]; auto. Qed.
Lemma base_no_ptr t : forall t', base t <> TPtr t'.
Proof. induction t; cbn [base]; try discriminate. exact IHt. Qed.
Lemma both_some a b l : both a b = Some l -> exists x y, a = Some x /\ b = Some y /\ l = (x ++ y)%list.
Proof. destruct a as [x|], b as [y|]; try discriminate. intros [= <-]. exists x, y. auto. Qed.
Lemma pair_in_spec p R : pair_in p R = true -> In p R.
Proof.
  unfold pair_in. rewrite existsb_exists. intros (q & I & E). apply andb_prop in E as (A & B). apply String.eqb_eq in A. apply ty_eqb_eq in B. destruct p, q. cbn in A, B. subst. exact I.
Qed.
Lemma wts_of t cur fs : wt t cur -> kind_of t = KStruct fs -> wts (fields_of_val cur) fs.
Proof. intros F K. destruct cur as [| | | | | |l]; cbn [wt] in F; rewrite K in F; try contradiction; try discriminate; try (destruct F as (F & _); discriminate F). exact F. Qed.

Definition decodes (j : json) (t : ty) : Prop := forall cur, wt t cur -> exists v, jdec j t cur = DVal v None.
Lemma peel j t : is_null j = false -> wk t = true -> decodes j (base t) -> decodes j t.
Proof.
  intros N. induction t; intros W D; try exact D. cbn [wk base] in *. intros cur F. rewrite jdec_eq.
  assert (G : exists v, node (shape_of j) t match cur with VPtr (Some x) => x | _ => zero_of t end = DVal v None).
  { rewrite <- jdec_eq. apply (IHt W D). destruct cur as [| | | |[x|]| |]; try (apply wt_zero, wk_kind, W). exact F. }
  destruct G as (v & G). exists (some_ptr v). cbn [node]. rewrite G. destruct j; try discriminate N; reflexivity.
Qed.
Lemma plain_dec j t : base t = t -> unmarshal_hook t = HNone -> (forall cur, wt t cur -> exists v, plain (shape_of j) t cur = DVal v None) -> decodes j t.
Proof. intros B H P cur F. rewrite jdec_eq, node_plain; [exact (P cur F)|rewrite <- B; apply base_no_ptr|exact H]. Qed.
Lemma hook_dec j t : base t = t -> unmarshal_hook t <> HNone -> t = TRef "SpecVersion" \/ exists h fs, hooked_type t h fs /\ h <> HLicense /\ unmarshal_hook t = h /\ kind_of t = KStruct fs /\
  ((forall cur, wts cur fs -> exists v, unmarshal h (shape_of j) t cur = Ok v) -> decodes j t).
Proof.
  intros B H. destruct (hook_cases t) as [U|[->|(h & fs & T)]]; [exfalso; exact (H (unhooked t U))|left; reflexivity|]. right. exists h, fs.
  assert (L : h <> HLicense) by (intros ->; apply H; unfold unmarshal_hook; rewrite (hooked_marshal _ _ _ T); reflexivity).
  split; [exact T|]. split; [exact L|]. split; [unfold unmarshal_hook; rewrite (hooked_marshal _ _ _ T); destruct h; try reflexivity; contradiction|].
  split; [exact (hooked_kind _ _ _ T)|]. intros D cur F. rewrite jdec_eq, (hooked_node _ _ _ _ _ T L). destruct (D (fields_of_val cur) (wts_of _ _ _ F (hooked_kind _ _ _ T))) as (v & ->). exists v. reflexivity.
Qed.

Section Fits.
  Variables (d : schemas) (R : list (string * ty)).
  Hypothesis HR : closed d R = true.
  Definition good (s : schema) (j : json) : Prop := forall t l, needs s t = Some l -> incl l R -> wk t = true -> decodes j t.
  Lemma good_base s j : is_null j = false -> (forall t l, base t = t -> needs s t = Some l -> incl l R -> wk t = true -> decodes j t) -> good s j.
  Proof. intros N H t l E I W. apply peel; [exact N|exact W|]. apply (H (base t) l); [apply base_base|rewrite <- needs_base; exact E|exact I|apply base_wk, W]. Qed.

  Lemma member_in fs ms : forall nl k s i f, members_need needs fs ms = Some nl -> assoc k ms = Some s -> find_field fs k = Some i -> nth_error fs i = Some f ->
    exists nl', needs s (f_ty f) = Some nl' /\ incl nl' nl.
  Proof.
    induction ms as [|[k' s'] ms IH]; intros nl k s i f E A Fi Nf; [discriminate|]. cbn [members_need fst snd] in E. apply both_some in E as (x & y & E1 & E2 & ->).
    cbn [assoc] in A. destruct (String.eqb_spec k' k) as [->|_].
    - injection A as ->. unfold member_needs in E1. rewrite Fi, Nf in E1. exists x. split; [exact E1|apply incl_appl, incl_refl].
    - destruct (IH _ _ _ _ _ E2 A Fi Nf) as (nl' & N & I). exists nl'. split; [exact N|apply incl_appr, I].
  Qed.
  Definition as_members (l : list (string * json)) : list (string * member) := map (fun m => (fst m, mkMember (is_null (snd m)) (jdec (snd m)))) l.
  Lemma object_members ms l fs nl : (forall k j, In (k, j) l -> In k (map fst ms)) -> (forall k j s, In (k, j) l -> assoc k ms = Some s -> good s j) ->
    members_need needs fs ms = Some nl -> incl nl R -> wks fs -> forall cur, wts cur fs -> exists vs, dec_members (as_members l) fs cur = inl (vs, None) /\ wts vs fs.
  Proof.
    intros K G E I W. induction l as [|[k j] l IH]; intros cur F; [exists cur; split; [reflexivity|exact F]|]. cbn [as_members map fst snd dec_members].
    assert (IH' : forall cur, wts cur fs -> exists vs, dec_members (as_members l) fs cur = inl (vs, None) /\ wts vs fs) by (apply IH; intros; [eapply K|eapply G]; try right; eassumption).
    destruct (find_field fs k) as [i|] eqn:Fi; [|exact (IH' cur F)]. destruct (nth_error fs i) as [f|] eqn:Nf; [|exact (IH' cur F)]. destruct (nth_error cur i) as [c|] eqn:Nc; [|exact (IH' cur F)].
    assert (S : exists s, assoc k ms = Some s).
    { assert (Hk : In k (map fst ms)) by (eapply K; left; reflexivity). clear -Hk. induction ms as [|[k' s'] ms IH]; [contradiction|]. cbn [assoc]. destruct (String.eqb_spec k' k) as [->|N]; [eexists; reflexivity|].
      apply IH. destruct Hk as [Hk|Hk]; [cbn in Hk; congruence|exact Hk]. }
    destruct S as (s & A). destruct (member_in _ _ _ _ _ _ _ E A Fi Nf) as (nl' & N & I').
    assert (Wf : wk (f_ty f) = true) by (unfold wks in W; rewrite Forall_forall in W; apply W; eapply nth_error_In, Nf).
    pose proof (zip_nth (fun f x => wt (f_ty f) x) _ _ _ _ _ F Nf Nc) as Fc.
    destruct (G k j s (or_introl eq_refl) A (f_ty f) nl' N (fun q Q => I q (I' q Q)) Wf c Fc) as (v & D). cbn [m_dec]. rewrite D.
    destruct (IH' (set_nth i v cur)) as (vs & E' & F').
    { eapply (zip_set (fun f x => wt (f_ty f) x)); [exact F|exact Nf|]. eapply jdec_typed; [exact Wf|exact Fc|exact D]. }
    fold (as_members l). rewrite E'. exists vs. split; [reflexivity|exact F'].
  Qed.
  Lemma object_into ms l t fs nl : (forall k j, In (k, j) l -> In k (map fst ms)) -> (forall k j s, In (k, j) l -> assoc k ms = Some s -> good s j) ->
    kind_of t = KStruct fs -> members_need needs fs ms = Some nl -> incl nl R -> exists vs, plain (SObj (as_members l)) t (zero_of t) = DVal (VStruct vs) None /\ wts vs fs.
  Proof.
    intros K G Kt E I. assert (F : wts (fields_of_val (zero_of t)) fs) by (eapply wts_of; [apply wt_zero; rewrite Kt; discriminate|exact Kt]).
    destruct (object_members ms l fs nl K G E I (wk_struct _ _ Kt) _ F) as (vs & D & F'). exists vs. unfold plain. rewrite Kt. cbn [dec_struct]. rewrite D. split; [reflexivity|exact F'].
  Qed.
  Lemma peek_ok ms l go name nl : (forall k j, In (k, j) l -> In k (map fst ms)) -> (forall k j s, In (k, j) l -> assoc k ms = Some s -> good s j) ->
    members_need needs (peek_field go name) ms = Some nl -> incl nl R -> exists x, peek (SObj (as_members l)) go name = Ok x.
  Proof.
    intros K G E I. destruct (object_members ms l _ nl K G E I) with (cur := [VStr ""]) as (vs & D & F).
    - constructor; [reflexivity|constructor].
    - split; [reflexivity|exact Logic.I].
    - unfold peek. cbn [dec_struct]. rewrite D. destruct vs as [|v [|]]; try contradiction; [|destruct F; contradiction]. destruct F as (F & _). destruct v; try discriminate F; try contradiction F.
      exists s. reflexivity.
  Qed.

  Lemma text_good s0 l : s0 = Text \/ s0 = Filled \/ (exists ws, s0 = Words ws /\ In l ws) -> good s0 (JStr l).
  Proof.
    intros S. apply good_base; [reflexivity|]. intros t nl B E I W. destruct (unmarshal_hook t) eqn:H.
    - apply plain_dec; [exact B|exact H|]. intros cur F. unfold plain.
      assert (K : kind_of t = KStr) by (destruct S as [->|[->|(ws & -> & _)]]; cbn [needs] in E; rewrite B, H in E; destruct (kind_of t); try discriminate; reflexivity).
      rewrite K. exists (VStr l). reflexivity.
    - destruct (hook_dec (JStr l) t B) as [->|(h & fs & T & L & U & K & D)]; [rewrite H; discriminate|discriminate|]. apply D. clear D. intros cur F. rewrite H in U. subst h. inversion T; subst.
      unfold wts, fields_EnvironmentVariableChoice in F. fields F. eexists. cbn [unmarshal shape_of]. unfold plain. cbn [kind_of assoc]. vm_compute. reflexivity.
    - destruct S as [->|[->|(ws & -> & _)]]; cbn [needs] in E; rewrite B, H in E; discriminate.
    - destruct (hook_dec (JStr l) t B) as [->|(h & fs & T & L & U & K & D)]; [rewrite H; discriminate| |rewrite H in U; subst h; inversion T].
      destruct S as [->|[->|(ws & -> & Hw)]]; [discriminate|discriminate|]. cbn [needs base] in E. change (unmarshal_hook (TRef "SpecVersion")) with HSpecVersion in E. cbv iota in E.
      destruct (forallb _ ws) eqn:P; [|discriminate]. rewrite forallb_forall in P. specialize (P l Hw). destruct (parse_spec_version l) as [z|] eqn:Pl; [|discriminate].
      intros cur F. exists (VInt z). rewrite jdec_eq. change (node (shape_of (JStr l)) (TRef "SpecVersion") cur) with (match parse_spec_version l with Some z => DVal (VInt z) None | None => DAbort EInvalidSpecVersion end). rewrite Pl. reflexivity.
    - destruct S as [->|[->|(ws & -> & _)]]; cbn [needs] in E; rewrite B, H in E; discriminate.
    - destruct S as [->|[->|(ws & -> & _)]]; cbn [needs] in E; rewrite B, H in E; discriminate.
    - destruct S as [->|[->|(ws & -> & _)]]; cbn [needs] in E; rewrite B, H in E; discriminate.
    - destruct S as [->|[->|(ws & -> & _)]]; cbn [needs] in E; rewrite B, H in E; discriminate.
    - destruct S as [->|[->|(ws & -> & _)]]; cbn [needs] in E; rewrite B, H in E; discriminate.
    - destruct S as [->|[->|(ws & -> & _)]]; cbn [needs] in E; rewrite B, H in E; discriminate.
    - destruct (hook_dec (JStr l) t B) as [->|(h & fs & T & L & U & K & D)]; [rewrite H; discriminate|discriminate|]. apply D. clear D. intros cur F. rewrite H in U. subst h.
      assert (C : cur <> []) by (intros ->; inversion T; subst; exact F). destruct cur as [|c cur]; [contradiction C; reflexivity|]. eexists. reflexivity.
    - destruct S as [->|[->|(ws & -> & _)]]; cbn [needs] in E; rewrite B, H in E; discriminate.
  Qed.
  Lemma scalar_hook s0 t nl : base t = t -> needs s0 t = Some nl -> s0 = Whole \/ s0 = Number \/ s0 = Truth -> unmarshal_hook t = HNone /\ kind_of t = match s0 with Whole => KInt | Number => KFlt | _ => KBool end.
  Proof.
    intros B E S. destruct S as [->|[->| ->]]; cbn [needs] in E; rewrite B in E; destruct (unmarshal_hook t); try discriminate E; (split; [reflexivity|]); destruct (kind_of t); try discriminate E; reflexivity.
  Qed.
  Lemma whole_good z : is_int z = true -> good Whole (JNum (format_int z)).
  Proof.
    intros Z. apply good_base; [reflexivity|]. intros t nl B E I W. destruct (scalar_hook _ _ _ B E (or_introl eq_refl)) as (H & K). apply plain_dec; [exact B|exact H|].
    intros cur F. exists (VInt z). unfold plain. rewrite K. cbn [shape_of]. rewrite (atoi_format z Z). reflexivity.
  Qed.
  Lemma number_good lit : holdable lit -> good Number (JNum lit).
  Proof.
    intros (_ & L). apply good_base; [reflexivity|]. intros t nl B E I W. destruct (scalar_hook _ _ _ B E (or_intror (or_introl eq_refl))) as (H & K). apply plain_dec; [exact B|exact H|].
    intros cur F. destruct (L (match t with TF32 => true | _ => false end)) as (f & P). exists (VFlt f). unfold plain. rewrite K. cbn [shape_of]. rewrite P. reflexivity.
  Qed.
  Lemma truth_good b : good Truth (JBool b).
  Proof.
    apply good_base; [reflexivity|]. intros t nl B E I W. destruct (scalar_hook _ _ _ B E (or_intror (or_intror eq_refl))) as (H & K). apply plain_dec; [exact B|exact H|].
    intros cur F. exists (VBool b). unfold plain. rewrite K. reflexivity.
  Qed.
  Lemma elements_ok s0 l t nl : (forall j, In j l -> good s0 j) -> needs s0 t = Some nl -> incl nl R -> wk t = true ->
    forall cur, Forall (wt t) cur -> exists vs, dec_elements (map jdec l) t cur = inl (vs, None).
  Proof.
    intros G E I W. induction l as [|j l IH]; intros cur F; [exists []; reflexivity|]. cbn [map dec_elements].
    destruct (G j (or_introl eq_refl) t nl E I W (hd (zero_of t) cur)) as (v & D).
    { destruct cur as [|c cur]; cbn [hd]; [apply wt_zero, wk_kind, W|]. inversion F; assumption. }
    rewrite D. destruct (IH (fun j Hj => G j (or_intror Hj)) (tl cur)) as (vs & E').
    { destruct cur; cbn [tl]; [constructor|]. inversion F; assumption. }
    rewrite E'. exists (v :: vs). reflexivity.
  Qed.
  Lemma list_into s0 l t nl : (forall j, In j l -> good s0 j) -> needs s0 t = Some nl -> incl nl R -> wk t = true -> exists v, unmarshal_into (SArr (map jdec l)) (TSlice t) = Ok v.
  Proof.
    intros G E I W. destruct (elements_ok s0 l t nl G E I W [] (Forall_nil _)) as (vs & D). exists (VSlice (Some vs)). unfold unmarshal_into, plain. cbn [kind_of kind_base zero_of list_of_slice].
    cbn. rewrite D. reflexivity.
  Qed.
  Lemma list_good s0 l : (forall j, In j l -> good s0 j) -> good (ListOf s0) (JArr l).
  Proof.
    intros G. apply good_base; [reflexivity|]. intros t nl B E I W. cbn [needs] in E. rewrite B in E. destruct (unmarshal_hook t) eqn:H; try discriminate E.
    - destruct (kind_of t) as [| | | | |t'| |] eqn:K; try discriminate E. apply plain_dec; [exact B|exact H|]. intros cur F. unfold plain. rewrite K. cbn [shape_of].
      destruct (elements_ok s0 l t' nl G E I (wk_slice _ _ W K) (list_of_slice cur)) as (vs & D).
      { destruct cur as [| | | | |[l0|]|]; try constructor. cbn [list_of_slice]. cbn [wt] in F. rewrite K in F. apply list_all_forall, F. }
      rewrite D. exists (VSlice (Some vs)). reflexivity.
    - destruct (hook_dec (JArr l) t B) as [->|(h & fs & T & L & U & K & D)]; [rewrite H; discriminate|discriminate|]. apply D. clear D. intros cur F. rewrite H in U. subst h.
      destruct (list_into s0 l _ nl G E I eq_refl) as (v & D). eexists. cbn [unmarshal shape_of].
      change (unmarshal_into (SArr (map jdec l)) (TRef "toolsChoiceJSON")) with (Err (A := val) (EType "array")). cbv iota beta. rewrite D. reflexivity.
    - destruct (hook_dec (JArr l) t B) as [->|(h & fs & T & L & U & K & D)]; [rewrite H; discriminate|discriminate|]. apply D. clear D. intros cur F. rewrite H in U. subst h. inversion T; subst.
      destruct (list_into s0 l _ nl G E I eq_refl) as (v & D). unfold wts, fields_EvidenceIdentityChoice in F. fields F. eexists. cbn [unmarshal shape_of]. rewrite D. reflexivity.
  Qed.
  Ltac hooked_case j t B H D K T L F :=
    destruct (hook_dec j t B) as [->|(h & fs & T & L & U & K & D)]; [rewrite H; discriminate|discriminate|]; apply D; clear D; intros cur F; rewrite H in U; subst h.
  Lemma object_good ms required l : (forall k j, In (k, j) l -> In k (map fst ms)) -> (forall k j s, In (k, j) l -> assoc k ms = Some s -> good s j) -> good (Object ms required) (JObj l).
  Proof.
    intros Ks G. apply good_base; [reflexivity|]. intros t nl B E I W. cbn [needs] in E. rewrite B in E. destruct (unmarshal_hook t) eqn:H; try discriminate E.
    - destruct (kind_of t) as [| | | | | |fs|] eqn:K; try discriminate E. apply plain_dec; [exact B|exact H|]. intros cur F. unfold plain. rewrite K. cbn [shape_of dec_struct].
      destruct (object_members ms l fs nl Ks G E I (wk_struct _ _ K) _ (wts_of _ _ _ F K)) as (vs & D & _). unfold as_members in D. rewrite D. exists (VStruct vs). reflexivity.
    - hooked_case (JObj l) t B H D K T L F. inversion T; subst. unfold wts, fields_EnvironmentVariableChoice in F. fields F.
      destruct (object_into ms l (TRef "Property") _ nl Ks G eq_refl E I) as (vs & P & _). cbn [unmarshal shape_of]. fold (as_members l). rewrite P.
      destruct (negb (zero_value (VStruct vs))); [eexists; reflexivity|]. unfold plain. cbn [kind_of kind_base]. eexists. reflexivity.
    - hooked_case (JObj l) t B H D K T L F. inversion T; subst. unfold wts, fields_MLDatasetChoice in F. fields F. apply both_some in E as (x & y & E1 & E2 & ->).
      destruct (object_into ms l (TRef "mlDatasetChoiceRefJSON") _ x Ks G eq_refl E1) as (vs & P & Fv); [intros q Q; apply I, in_or_app; left; exact Q|].
      destruct (object_into ms l (TRef "ComponentData") _ y Ks G eq_refl E2) as (vs2 & P2 & _); [intros q Q; apply I, in_or_app; right; exact Q|].
      cbn [unmarshal shape_of]. fold (as_members l). unfold unmarshal_into at 1. rewrite P. cbn [finish bind].
      destruct vs as [|w vs]; [contradiction Fv|]. destruct Fv as (Fw & Fv). destruct vs as [|? ?]; [|contradiction Fv]. cbn [f_ty] in Fw. destruct w as [w| | | | | |]; try discriminate Fw; try contradiction Fw.
      destruct (negb (String.eqb w "")); [eexists; reflexivity|].
      unfold unmarshal_into. rewrite P2. cbn [finish bind]. eexists. reflexivity.
    - hooked_case (JObj l) t B H D K T L F.
      destruct (object_into ms l (TRef "toolsChoiceJSON") _ nl Ks G eq_refl E I) as (vs & P & Fv). cbn [unmarshal shape_of]. fold (as_members l). unfold unmarshal_into at 1. rewrite P. cbn [finish].
      destruct vs as [|v1 [|v2 [|? ?]]]; [contradiction Fv|destruct Fv as (_ & Fv); contradiction Fv| |destruct Fv as (_ & _ & Fv); contradiction Fv]. eexists. reflexivity.
    - hooked_case (JObj l) t B H D K T L F. inversion T; subst. unfold wts, fields_EvidenceIdentityChoice in F. fields F.
      destruct (object_into ms l (TRef "EvidenceIdentity") _ nl Ks G eq_refl E I) as (vs & P & _). cbn [unmarshal shape_of]. fold (as_members l). unfold unmarshal_into. rewrite P. eexists. reflexivity.
    - hooked_case (JObj l) t B H D K T L F. inversion T; subst. unfold wts, fields_CertificateState in F. fields F. apply both_some in E as (x & y & E1 & E2 & ->). apply both_some in E2 as (y1 & y2 & E2 & E3 & ->).
      destruct (peek_ok ms l _ _ x Ks G E1) as (p & P); [intros q Q; apply I; rewrite !in_app_iff; auto|].
      destruct (object_into ms l (TRef "PredefinedCertificateState") _ y1 Ks G eq_refl E2) as (v1 & P1 & _); [intros q Q; apply I; rewrite !in_app_iff; auto|].
      destruct (object_into ms l (TRef "CustomCertificateState") _ y2 Ks G eq_refl E3) as (v2 & P2 & _); [intros q Q; apply I; rewrite !in_app_iff; auto|].
      cbn [unmarshal shape_of]. fold (as_members l). rewrite P. cbn [bind]. unfold unmarshal_into. rewrite P1, P2. destruct (negb (String.eqb p "")); eexists; reflexivity.
    - hooked_case (JObj l) t B H D K T L F. inversion T; subst. unfold wts, fields_CertificateExtension in F. fields F. apply both_some in E as (x & y & E1 & E2 & ->). apply both_some in E2 as (y1 & y2 & E2 & E3 & ->).
      destruct (peek_ok ms l _ _ x Ks G E1) as (p & P); [intros q Q; apply I; rewrite !in_app_iff; auto|].
      destruct (object_into ms l (TRef "CommonCertificateExtension") _ y1 Ks G eq_refl E2) as (v1 & P1 & _); [intros q Q; apply I; rewrite !in_app_iff; auto|].
      destruct (object_into ms l (TRef "CustomCertificateExtension") _ y2 Ks G eq_refl E3) as (v2 & P2 & _); [intros q Q; apply I; rewrite !in_app_iff; auto|].
      cbn [unmarshal shape_of]. fold (as_members l). rewrite P. cbn [bind]. unfold unmarshal_into. rewrite P1, P2. destruct (negb (String.eqb p "")); eexists; reflexivity.
    - hooked_case (JObj l) t B H D K T L F. inversion T; subst. unfold wts, fields_AsserterChoice in F. fields F. cbn [unmarshal shape_of]. fold (as_members l).
      destruct (forallb _ ms) eqn:A; [|discriminate]. rewrite forallb_forall in A.
      assert (Q : dec_raw (as_members l) [None; None; None] = [None; None; None]).
      { clear -A Ks. induction l as [|[k j] l IH]; [reflexivity|]. cbn [as_members map dec_raw fst snd]. assert (Hk : In k (map fst ms)) by (eapply Ks; left; reflexivity).
        apply in_map_iff in Hk as ((k' & s') & <- & Hk). specialize (A _ Hk). cbn [fst] in A |- *. destruct (find_field raw_fields k'); [discriminate|]. apply IH. intros k j' Hj. eapply Ks. right. exact Hj. }
      rewrite Q. eexists. reflexivity.
    - hooked_case (JObj l) t B H D K T L F. assert (Fs : fields_of t = fs) by (unfold fields_of; rewrite K; reflexivity). rewrite Fs in E.
      destruct (object_members ms l fs nl Ks G E I (wk_struct _ _ K) _ F) as (vs & D & _).
      assert (C : cur <> []) by (intros ->; inversion T; subst; exact F). destruct cur as [|c cur]; [contradiction C; reflexivity|].
      exists (VStruct vs). cbn [unmarshal shape_of]. fold (as_members l). unfold plain. rewrite K. cbn [dec_struct fields_of_val]. rewrite D. reflexivity.
    - hooked_case (JObj l) t B H D K T L F. inversion T; subst. unfold wts, fields_PatentChoice in F. fields F. apply both_some in E as (x & y & E1 & E2 & ->). apply both_some in E2 as (y1 & y2 & E2 & E3 & ->).
      destruct (peek_ok ms l _ _ x Ks G E1) as (p & P); [intros q Q; apply I; rewrite !in_app_iff; auto|].
      destruct (object_into ms l (TRef "PatentFamily") _ y1 Ks G eq_refl E2) as (v1 & P1 & _); [intros q Q; apply I; rewrite !in_app_iff; auto|].
      destruct (object_into ms l (TRef "Patent") _ y2 Ks G eq_refl E3) as (v2 & P2 & _); [intros q Q; apply I; rewrite !in_app_iff; auto|].
      cbn [unmarshal shape_of]. fold (as_members l). rewrite P. cbn [bind]. unfold unmarshal_into. rewrite P1, P2. destruct (negb (String.eqb p "")); eexists; reflexivity.
  Qed.
  Lemma one_in alts : forall s t nl, In s alts -> all_need (fun s' => needs s' t) alts = Some nl -> exists nl', needs s t = Some nl' /\ incl nl' nl.
  Proof.
    induction alts as [|a alts IH]; intros s t nl Hi E; [contradiction|]. cbn [all_need] in E. apply both_some in E as (x & y & E1 & E2 & ->). destruct Hi as [->|Hi].
    - exists x. split; [exact E1|apply incl_appl, incl_refl].
    - destruct (IH _ _ _ Hi E2) as (nl' & N & I). exists nl'. split; [exact N|apply incl_appr, I].
  Qed.
  Theorem conforming s j : conforms d s j -> good s j.
  Proof.
    induction 1 as [x|x Hx|ws x Hw|z Hz|lit Hl|b|s l _ IH|ms req l Ks _ IH _|n s j A _ IH|alts s j Hi _ IH|j].
    - apply text_good. left. reflexivity.
    - apply text_good. right. left. reflexivity.
    - apply text_good. right. right. exists ws. auto.
    - apply whole_good, Hz.
    - apply number_good, Hl.
    - apply truth_good.
    - apply list_good, IH.
    - apply object_good; assumption.
    - intros t nl E I W. cbn [needs] in E. injection E as <-. assert (Q : In (n, base t) R) by (apply I; left; reflexivity).
      unfold closed in HR. rewrite forallb_forall in HR. specialize (HR _ Q). cbn [fst snd] in HR. apply andb_prop in HR as (_ & C). rewrite A in C.
      destruct (needs s (base t)) as [nl|] eqn:N; [|discriminate]. rewrite <- needs_base in N. apply (IH t nl N); [|exact W]. intros q Hq. rewrite forallb_forall in C. apply pair_in_spec, C, Hq.
    - intros t nl E I W. cbn [needs] in E. destruct (one_in _ _ _ _ Hi E) as (nl' & N & I'). rewrite <- needs_base in N. apply (IH t nl' N); [|exact W]. intros q Hq. apply I, I', Hq.
    - intros t nl E. exfalso. cbn [needs] in E. destruct (unmarshal_hook (base t)); discriminate E.
  Qed.
End Fits.

Theorem suits_decodes d j b : suits d = true -> conforms d (Ref "") j -> too_deep j = false -> exists c, bom_of_json j b = Ok c.
Proof.
  intros S C T. unfold suits in S. apply andb_prop in S as (S & Q). apply pair_in_spec in Q. unfold bom_of_json. rewrite T.
  destruct (conforming d (reached d) S (Ref "") j C (TRef "BOM") _ eq_refl) with (cur := reify_BOM b) as (v & D).
  - intros q [<-|[]]. exact Q.
  - reflexivity.
  - apply typed_BOM.
  - rewrite D. exists (reflect_BOM v). reflexivity.
Qed.
