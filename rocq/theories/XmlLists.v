(** The types whose UnmarshalXML methods are loops over tokens. *)
From Verif Require Import Base Types Univ TypeTable Wt ReifyBase Consts LinkModel Version Numbers NumbersProofs JsonModel JsonProofs JsonHooks XmlModel XmlBack XmlTable XmlSpec XmlValues XmlProofs XmlPairs XmlStructs XmlSelf XmlHooks.
From Coq Require Import Lia.
Local Open Scope string_scope.
Section Limits.
Context {Lim : Limit}.

(** ** Loops over the children *)
Definition short (x : xml) : Prop := (0 + 2 * tall x <= limit + 1)%N.
Lemma short_kids sp l a ks : short (XElem sp l a ks) -> Forall short (filter is_elem ks).
Proof.
  intros H. apply Forall_forall. intros k K. apply filter_In in K as (K & _). pose proof (tall_kid sp l a ks k K). unfold short in *. lia.
Qed.
Lemma each_filter {S} (f : kid -> S -> result xerr S) ks : forall s, each_kid f (map waiting ks) s = each_kid f (map waiting (filter is_elem ks)) s.
Proof.
  induction ks as [|[t|sp l a ks'] ks IH]; intros s; [reflexivity|apply IH|]. cbn [map filter is_elem waiting each_kid].
  destruct (f _ s) as [s'|]; [|reflexivity]. apply IH.
Qed.
Lemma each_app {S} (f : kid -> S -> result xerr S) a : forall b s, each_kid f (a ++ b) s = bind (each_kid f a s) (each_kid f b).
Proof.
  induction a as [|[t|sp l at_ ks d] a IH]; intros b s; [reflexivity|apply IH|]. cbn [app each_kid]. destruct (f _ s) as [s'|]; [|reflexivity]. apply IH.
Qed.
(** One element of a list: written by [enc], what comes back of it is [back], and [f]
    adds that to the state with [add]. *)
Definition adds {S} (inv : S -> Prop) (f : kid -> S -> result xerr S) (add : S -> val -> S) (enc : node -> xout) (back : bnode -> option val) (x : val) : Prop :=
  forall els, enc (annotate x) = Ok els ->
  match back (back_of x) with
  | None => els = []
  | Some b => exists e, els = [e] /\ is_elem e = true /\ forall e', seen e e' -> short e' -> forall s, inv s -> f (waiting e') s = Ok (add s b)
  end.
Lemma collect {S} (inv : S -> Prop) (f : kid -> S -> result xerr S) add enc back l : (forall s b, inv s -> inv (add s b)) -> Forall (adds inv f add enc back) l ->
  forall els, concat_all enc (map annotate l) = Ok els ->
  forallb is_elem els = true /\
  forall els', Forall2 seen els els' -> Forall short els' -> forall s, inv s -> each_kid f (map waiting els') s = Ok (fold_left add (somes back (map back_of l)) s).
Proof.
  intros Iv. induction 1 as [|x l H _ IH]; intros els E.
  - injection E as <-. split; [reflexivity|]. intros els' F _ s _. inversion F. reflexivity.
  - cbn [map concat_all] in E. apply bind_ok in E as (a & A & E). apply bind_ok in E as (b & B & E). injection E as <-.
    destruct (IH b B) as (N & R). specialize (H a A). cbn [map somes]. destruct (back (back_of x)) as [w|].
    + destruct H as (e & -> & Ne & D). split; [cbn; rewrite Ne; exact N|]. intros els' F T s Is. inversion F as [|? e' ? r S' F']; subst. inversion T; subst.
      pose proof (seen_elem _ _ S') as (_ & El). destruct e' as [|sp lo at_ ks]; [discriminate|].
      change (map waiting (XElem sp lo at_ ks :: r)) with (waiting (XElem sp lo at_ ks) :: map waiting r).
      cbn [each_kid waiting]. change (KElem sp lo at_ (map waiting ks) (dec_elem sp lo at_ (map waiting ks))) with (waiting (XElem sp lo at_ ks)).
      rewrite (D _ S') by assumption. cbn [bind fold_left]. apply R; auto.
    + subst a. split; [exact N|exact R].
Qed.
Lemma fold_snoc (l : list val) : forall s, fold_left (fun s b => s ++ [b])%list l s = (s ++ l)%list.
Proof. induction l as [|x l IH]; intros s; cbn; [rewrite app_nil_r; reflexivity|]. rewrite IH, <- app_assoc. reflexivity. Qed.
Lemma elems_filter ks : forallb is_elem ks = true -> filter is_elem ks = ks.
Proof. induction ks as [|k ks IH]; [reflexivity|]. cbn. destruct (is_elem k); [intros H; f_equal; apply IH, H|discriminate]. Qed.

(** A type that is a slice *)
Lemma hook_list t t' m enc back f l : marshaler t = m -> unmarshaler t = m -> m <> MNone -> kind_of t = KSlice t' -> is_data t = false ->
  (forall fs v ns name, marshal m fs v ns name = match ns with [] => Ok [] | _ => within name (concat_all enc ns) end) ->
  (forall fs v ns, back_method m fs v ns = match ns with [] => None | _ => Some (VSlice (Some (somes back ns))) end) ->
  (forall sp lo a ks cur, unmarshal m t sp lo a ks cur = bind (each_kid f ks []) (fun l => Ok (VSlice (Some l)))) ->
  Forall (adds (fun _ => True) f (fun s b => s ++ [b])%list enc back) l -> one_at t (VSlice (Some l)).
Proof.
  intros M U N K Dt Hm Hb Hu A omit name els W S E.
  assert (E' : marshal m (fields_of t) (VSlice (Some l)) (map annotate l) name = Ok els).
  { rewrite <- E. cbn [annotate nenc encode]. rewrite M. destruct m; try reflexivity. congruence. }
  assert (B : bback (back_of (VSlice (Some l))) t omit = back_method m (fields_of t) (VSlice (Some l)) (map back_of l)).
  { cbn [back_of bback back_value]. rewrite M. destruct m; try reflexivity. congruence. }
  rewrite B, Hb. rewrite Hm in E'. destruct l as [|x l]; [injection E' as <-; reflexivity|]. cbn [map] in *.
  change (annotate x :: map annotate l) with (map annotate (x :: l)) in E'. change (back_of x :: map back_of l) with (map back_of (x :: l)).
  unfold within in E'. apply bind_ok in E' as (ks & Ek & E'). injection E' as <-.
  destruct (collect (fun _ => True) f _ enc back (x :: l) (fun _ _ _ => I) A ks Ek) as (El & R).
  exists (elem name [] ks). split; [reflexivity|]. split; [unfold element_name; rewrite Dt; reflexivity|].
  intros e' D Se T. apply seen_inv in Se as (sp' & ks' & -> & F & _ & _). cbn [vdec]. unfold dec_value. rewrite U.
  assert (G : unmarshal m t sp' name [] (map waiting ks') (zero_of t) = Ok (VSlice (Some (somes back (map back_of (x :: l)))))).
  { rewrite Hu, each_filter. rewrite (elems_filter _ El) in F. rewrite (R _ F) by (exact I || (apply (short_kids sp' name []); unfold short; lia)).
    cbn [bind]. rewrite fold_snoc. reflexivity. }
  destruct m; try exact G. congruence.
Qed.

(** ** Fields that are pointers to one element *)
Definition fresh (e : xml) (t : ty) : result xerr val := match e with XElem sp l a ks => decode_fresh (dec_elem sp l a (map waiting ks)) t | XText _ => Err XEOF end.
Lemma fresh_base e t : base_ty t = true -> is_elem e = true -> fresh e t = vdec e t 0%N (zero_of t).
Proof. intros B E. rewrite <- (xdec_base e t 0%N (zero_of t) B E) by reflexivity. destruct e; [discriminate|]. reflexivity. Qed.
Lemma ptr_one t x omit n els : base_ty t = true -> one_at t x -> wt t x -> xsane t x -> nenc (annotate (VPtr (Some x))) (TPtr t) omit n = Ok els ->
  match bback (back_of x) t omit with
  | None => els = []
  | Some b => exists e, els = [e] /\ named (element_name t n) e /\ forall e', seen e e' -> short e' -> fresh e' t = Ok b
  end.
Proof.
  intros B H W S E. specialize (H omit n els W S E). destruct (bback (back_of x) t omit) as [b|]; [|exact H].
  destruct H as (e & -> & N & D). exists e. split; [reflexivity|]. split; [exact N|]. intros e' Se T.
  rewrite fresh_base by (try exact B; apply (seen_elem _ _ Se)). apply D; assumption.
Qed.
Lemma struct_back t fs v omit : kind_of t = KStruct fs -> (marshaler t = MNone \/ marshaler t = MLicense) -> wt t v ->
  bback (back_of v) t omit = Some (VStruct (back_fields fs (match v with VStruct vs => map back_of vs | _ => [] end))).
Proof.
  intros K M W. destruct (wt_struct t fs v K W) as (vs & -> & _). cbn [back_of bback back_value]. unfold fields_of. rewrite K. destruct M as [-> | ->]; reflexivity.
Qed.
Definition struct_of (fs : list field) (v : val) : val := VStruct (back_fields fs (match v with VStruct vs => map back_of vs | _ => [] end)).
Lemma ptr_struct t fs x : kind_of t = KStruct fs -> (marshaler t = MNone \/ marshaler t = MLicense) -> wt t x -> bptr (back_of (VPtr (Some x))) t = some_ptr (struct_of fs x).
Proof.
  intros K M W. unfold bptr. cbn [back_of bback back_value option_map]. change (elem_ty (TPtr t)) with t.
  fold (back_of x). rewrite (struct_back t fs x false K M W). reflexivity.
Qed.
Lemma ptr_omit t fs v omit : kind_of t = KStruct fs -> (marshaler t = MNone \/ marshaler t = MLicense) -> wt (TPtr t) v ->
  default (TPtr t) (checked_back (back_of v) (TPtr t) omit) = bptr (back_of v) t.
Proof.
  intros K M W. apply wt_ptr in W as [->|(x & -> & W)]; [unfold checked_back; destruct (omit && _)%bool; reflexivity|].
  rewrite (ptr_struct t fs x K M W). unfold checked_back. cbn [bval back_of empty_value]. rewrite Bool.andb_false_r.
  cbn [bback back_value]. change (elem_ty (TPtr t)) with t. fold (back_of x). rewrite (struct_back t fs x omit K M W). reflexivity.
Qed.
Lemma waiting_elem sp l a ks : waiting (XElem sp l a ks) = KElem sp l a (map waiting ks) (dec_elem sp l a (map waiting ks)).
Proof. reflexivity. Qed.
(** Opens an element that was seen. *)
End Limits.
Ltac open_seen e' Se N :=
  let H := fresh in pose proof (seen_named _ _ _ Se N) as H; destruct e' as [?|?sp ?l ?a ?ks]; [destruct H|]; cbn [named] in H; subst.
Section Limits.
Context {Lim : Limit}.

(** ** MEnvironment *)
Lemma environment_adds x : everywhere one_ok x -> wt (TRef "EnvironmentVariableChoice") x -> xsane (TRef "EnvironmentVariableChoice") x ->
  adds (fun _ => True) dec_environment (fun s b => s ++ [b])%list enc_environment back_environment x.
Proof.
  intros Ev W S els E. destruct (wt_struct (TRef "EnvironmentVariableChoice") _ _ eq_refl W) as (vs & -> & Wz). unfold fields_EnvironmentVariableChoice in Wz.
  destruct vs as [|prop [|value [|? ?]]]; try contradiction; try (destruct Wz as (_ & []); fail); [|destruct Wz as (_ & _ & [])].
  destruct Wz as (Wp & Wv & _). destruct S as (Sp & _). cbn [f_ty] in *. apply wt_str in Wv as (s & ->).
  assert (Ep : everywhere one_ok prop) by (destruct Ev as (_ & (Ep & _)); exact Ep). clear Ev W.
  unfold enc_environment in E. cbn [annotate nsubs map] in E. fold annotate in E. unfold set, filled, nonempty, nstr in E. rewrite ?nval_annotate in E. cbn [nval str_of] in E.
  unfold back_environment. cbn [back_of bsubs map]. fold back_of. unfold bset, bfilled, nonempty, bclean, bstr. rewrite ?bval_back. cbn [bval str_of].
  apply wt_ptr in Wp as [->|(p & -> & Wp)]; cbn [nonnil andb] in *.
  - destruct (String.eqb s "") eqn:R; cbn [negb] in *; injection E as <-; [reflexivity|].
    exists (text_elem "value" s). split; [reflexivity|]. split; [reflexivity|]. intros e' Se T st _. apply seen_text in Se as (sp' & ->).
    rewrite waiting_elem. cbn [dec_environment]. change (String.eqb "value" "value") with true. cbv iota.
    change (decode_fresh (dec_elem sp' "value" [] (map waiting (text s))) TStr) with (Ok (VStr (chardata (map waiting (text s)))) : result xerr val).
    rewrite text_chardata. reflexivity.
  - destruct (negb (String.eqb s "")); [discriminate|].
    pose proof (ptr_one (TRef "Property") p false "environmentVar" els eq_refl (everywhere_here _ _ (everywhere_ptr p Ep) (TRef "Property") eq_refl) Wp Sp E) as H.
    rewrite (struct_back (TRef "Property") fields_Property) in H by (auto; reflexivity). destruct H as (e & -> & N & D).
    rewrite (ptr_struct (TRef "Property") fields_Property) by (auto; reflexivity).
    exists e. split; [reflexivity|]. split; [destruct e; [destruct N|reflexivity]|]. intros e' Se T st _. specialize (D e' Se T).
    change (element_name (TRef "Property") "environmentVar") with "environmentVar" in N. open_seen e' Se N. rewrite waiting_elem. cbn [dec_environment].
    change (String.eqb "environmentVar" "value") with false. change (String.eqb "environmentVar" "environmentVar") with true. cbv iota.
    cbn [fresh] in D. rewrite D. reflexivity.
Qed.
Lemma slice_wt t t' v : kind_of t = KSlice t' -> wt t v -> exists s, v = VSlice s /\ match s with None => True | Some l => list_all (wt t') l end.
Proof. intros K W. destruct v as [| | | |[]|[l|]|]; cbn [wt] in W; rewrite K in W; try contradiction; try discriminate; eauto. Qed.
Lemma list_adds {S} (inv : S -> Prop) (f : kid -> S -> result xerr S) add enc back t' l : (forall x, everywhere one_ok x -> wt t' x -> xsane t' x -> adds inv f add enc back x) ->
  below one_ok (VSlice (Some l)) -> list_all (wt t') l -> list_all (xsane t') l -> Forall (adds inv f add enc back) l.
Proof.
  intros H B W Sa. cbn [below] in B. apply list_all_Forall in B, W, Sa. rewrite Forall_forall in *. intros x X. apply H; auto.
Qed.
Lemma one_environment v : below one_ok v -> one_at (TRef "EnvironmentVariables") v.
Proof.
  intros B omit name els W S. destruct (slice_wt (TRef "EnvironmentVariables") (TRef "EnvironmentVariableChoice") _ eq_refl W) as ([l|] & -> & Wl); [|intros [= <-]; reflexivity].
  refine (hook_list (TRef "EnvironmentVariables") (TRef "EnvironmentVariableChoice") MEnvironment enc_environment back_environment dec_environment l
    eq_refl eq_refl _ eq_refl eq_refl _ _ _ _ omit name els W S); try discriminate.
  - intros fs v [|n ns] nm; reflexivity.
  - intros fs v [|n ns]; reflexivity.
  - reflexivity.
  - apply (list_adds _ _ _ _ _ (TRef "EnvironmentVariableChoice")); auto using environment_adds.
Qed.

(** ** MLicenses *)
Definition detail_node (d : val) : val := match d with VStruct [id; _; txt; url] => VStruct [id; txt; url] | _ => d end.
Definition details_field : field := mkField "Details" (TSlice (TRef "licenseExpressionDetailXML")) "xml:""details""" false.
Definition detail_ok (d : val) : Prop := everywhere one_ok d /\ wt (TRef "LicenseExpressionDetail") d /\ xsane (TRef "LicenseExpressionDetail") d.
Lemma detail_shape d : detail_ok d -> exists id r txt url, d = VStruct [VStr id; VStr r; txt; VStr url] /\ everywhere one_ok txt /\
  wt (TPtr (TRef "AttachedText")) txt /\ xsane (TPtr (TRef "AttachedText")) txt.
Proof.
  intros (Ev & W & S). destruct (wt_struct (TRef "LicenseExpressionDetail") _ _ eq_refl W) as (vs & -> & Wz). unfold fields_LicenseExpressionDetail in Wz. clear W.
  destruct vs as [|id [|r [|txt [|url [|? ?]]]]]; try contradiction; try (destruct Wz as (_ & []); fail); try (destruct Wz as (_ & _ & []); fail); try (destruct Wz as (_ & _ & _ & []); fail);
    [|destruct Wz as (_ & _ & _ & _ & [])].
  destruct Wz as (Wi & Wr & Wt & Wu & _). destruct S as (_ & _ & St & _). cbn [f_ty] in *. apply wt_str in Wi as (id' & ->), Wr as (r' & ->), Wu as (url' & ->).
  exists id', r', txt, url'. repeat split; auto. apply (below_part _ txt (everywhere_below _ _ Ev)). right. right. left. reflexivity.
Qed.
Lemma detail_one d : detail_ok d -> one_at (TRef "licenseExpressionDetailXML") (detail_node d) /\
  wt (TRef "licenseExpressionDetailXML") (detail_node d) /\ xsane (TRef "licenseExpressionDetailXML") (detail_node d).
Proof.
  intros H. apply detail_shape in H as (id & r & txt & url & -> & Ev & W & S). cbn [detail_node].
  assert (Wz : zip_all (fun f v => wt (f_ty f) v) [VStr id; txt; VStr url] fields_licenseExpressionDetailXML) by (repeat split; assumption).
  assert (Sz : zip_all (fun f v => xsane (f_ty f) v) [VStr id; txt; VStr url] fields_licenseExpressionDetailXML) by (repeat split; assumption).
  split; [|split; [exact Wz|exact Sz]].
  apply (plain_one _ fields_licenseExpressionDetailXML); try reflexivity. split; [exact Wz|]. split; [exact Sz|].
  cbn [zip_all fields_licenseExpressionDetailXML f_ty]. repeat apply conj; try exact I; try apply many_str. apply many; [reflexivity|exact Ev].
Qed.
Lemma details_ok l : Forall detail_ok l -> many_at (TSlice (TRef "licenseExpressionDetailXML")) (VSlice (Some (map detail_node l))) /\
  wt (TSlice (TRef "licenseExpressionDetailXML")) (VSlice (Some (map detail_node l))) /\ xsane (TSlice (TRef "licenseExpressionDetailXML")) (VSlice (Some (map detail_node l))).
Proof.
  intros H. assert (G : forall P : val -> Prop, (forall d, detail_ok d -> P (detail_node d)) -> Forall P (map detail_node l)).
  { intros P HP. apply Forall_forall. intros x X. apply in_map_iff in X as (d & <- & X). apply HP. rewrite Forall_forall in H. apply H, X. }
  split; [|split].
  - apply many_slice; [reflexivity|]. intros l' [= <-]. apply G. intros d D. apply detail_one, D.
  - cbn [wt]. apply list_all_Forall, G. intros d D. apply detail_one, D.
  - cbn [xsane]. apply list_all_Forall, G. intros d D. apply detail_one, D.
Qed.
Lemma details_enc l : Forall detail_ok l -> enc_field details_field (annotate (VSlice (Some (map detail_node l)))) = concat_all enc_detail (map annotate l).
Proof.
  intros H.
  assert (G : concat_all (fun n => enc_checked n (TRef "licenseExpressionDetailXML") false "details") (map annotate (map detail_node l)) = concat_all enc_detail (map annotate l)).
  { induction H as [|d l D _ IH]; [reflexivity|]. cbn [map concat_all]. rewrite IH. apply detail_shape in D as (id & r & txt & url & -> & _). reflexivity. }
  rewrite <- G. assert (X : enc_field details_field (annotate (VSlice (Some (map detail_node l)))) =
    bind (concat_all (fun n => enc_checked n (TRef "licenseExpressionDetailXML") false "details") (map annotate (map detail_node l))) (fun ks => Ok (wrap [] ks))) by reflexivity.
  rewrite X. destruct (concat_all _ _); reflexivity.
Qed.
Lemma details_back l : Forall detail_ok l ->
  map detail_back (list_of_slice (back_field details_field (back_of (VSlice (Some (map detail_node l)))))) = map back_detail (map back_of l).
Proof.
  intros H.
  assert (X : back_field details_field (back_of (VSlice (Some (map detail_node l)))) = default (TSlice (TRef "licenseExpressionDetailXML"))
    (match somes (fun x => checked_back x (TRef "licenseExpressionDetailXML") false) (map back_of (map detail_node l)) with [] => None | l => Some (VSlice (Some l)) end)) by reflexivity.
  rewrite X. clear X.
  assert (G : forall o, list_of_slice (default (TSlice (TRef "licenseExpressionDetailXML")) (match o with [] => None | y :: r => Some (VSlice (Some (y :: r))) end)) = o) by (intros [|? ?]; reflexivity).
  rewrite G. clear G. induction H as [|d l D _ IH]; [reflexivity|]. apply detail_shape in D as (id & r & txt & url & -> & _ & Wt & _).
  cbn [map somes]. unfold checked_back at 1. cbn [andb bval back_of detail_node].
  assert (X : bback (BNode (VStruct [VStr id; txt; VStr url]) (back_value (VStruct [VStr id; txt; VStr url]) (map back_of [VStr id; txt; VStr url])) (map back_of [VStr id; txt; VStr url])) (TRef "licenseExpressionDetailXML") false
     = Some (VStruct [VStr (xml_clean id); bptr (back_of txt) (TRef "AttachedText"); VStr (xml_clean url)])).
  { cbn [bback]. set (n := back_of txt).
    change (Some (VStruct [VStr (xml_clean id); back_field (mkField "Text" (TPtr (TRef "AttachedText")) "xml:""text,omitempty""" false) n;
       back_field (mkField "URL" TStr "xml:""url,omitempty""" false) (back_of (VStr url))]) = Some (VStruct [VStr (xml_clean id); bptr n (TRef "AttachedText"); VStr (xml_clean url)])).
    rewrite back_str by (reflexivity || (vm_compute; discriminate)). do 4 f_equal.
    apply (ptr_omit (TRef "AttachedText") fields_AttachedText txt true); auto; reflexivity. }
  rewrite X. cbn [map]. rewrite IH. reflexivity.
Qed.

Lemma expression_same expr ack r : expr <> "" ->
  enc_struct fields_licenseExpressionXML (map annotate [VStr expr; VStr ack; VStr r]) "expression" =
  Ok [elem "expression" (attr_if "acknowledgement" ack ++ attr_if "bom-ref" r)%list (text expr)].
Proof. intros N. destruct expr; [congruence|]. destruct ack, r; reflexivity. Qed.
Lemma detailed_same expr ack r l : Forall detail_ok l ->
  enc_struct fields_licenseExpressionDetailedXML (map annotate [VStr expr; VStr ack; VStr r; VSlice (Some (map detail_node l))]) "expression-detailed" =
  bind (concat_all enc_detail (map annotate l)) (fun ks =>
    Ok [elem "expression-detailed" (attr "expression" expr :: attr_if "acknowledgement" ack ++ attr_if "bom-ref" r)%list ks]).
Proof.
  intros H. pose proof (details_enc l H) as X. unfold enc_struct, fields_licenseExpressionDetailedXML. fold details_field.
  set (d := VSlice (Some (map detail_node l))) in *.
  cbn [map enc_fields]. rewrite X. replace (enc_field _ (annotate (VStr expr))) with (Ok [] : xout) by reflexivity.
  replace (enc_field _ (annotate (VStr ack))) with (Ok [] : xout) by reflexivity. replace (enc_field _ (annotate (VStr r))) with (Ok [] : xout) by reflexivity.
  destruct (concat_all enc_detail (map annotate l)) as [ks|]; [|reflexivity]. cbn [bind app]. rewrite app_nil_r. destruct ack, r; reflexivity.
Qed.
Lemma choice_adds x : everywhere one_ok x -> wt (TRef "LicenseChoice") x -> xsane (TRef "LicenseChoice") x ->
  adds (fun _ => True) dec_choice (fun s b => s ++ [b])%list enc_choice back_license_choice x.
Proof.
  intros Ev W S els E. destruct (wt_struct (TRef "LicenseChoice") _ _ eq_refl W) as (vs & -> & Wz). unfold fields_LicenseChoice in Wz. clear W.
  unzip Wz. destruct S as (Sl & _ & Sd & _). cbn [f_ty] in *. rename v into lic, v0 into expr, v1 into details, v2 into ack, v3 into ref, v4 into licensing, v5 into props.
  assert (El : everywhere one_ok lic) by (apply (below_part _ _ (everywhere_below _ _ Ev)); left; reflexivity).
  assert (Ed : everywhere one_ok details) by (apply (below_part _ _ (everywhere_below _ _ Ev)); right; right; left; reflexivity).
  clear Ev Wf4 Wf5. apply wt_str in Wf0 as (s & ->), Wf3 as (r & ->).
  unfold enc_choice in E. change (nsubs (annotate (VStruct [lic; VStr s; details; ack; VStr r; licensing; props]))) with (map annotate [lic; VStr s; details; ack; VStr r; licensing; props]) in E.
  cbn [map] in E. unfold set, filled, nonempty, nstr in E. rewrite !nval_annotate in E. cbn [str_of] in E.
  unfold back_license_choice. change (bsubs (back_of (VStruct [lic; VStr s; details; ack; VStr r; licensing; props]))) with (map back_of [lic; VStr s; details; ack; VStr r; licensing; props]).
  cbn [map]. unfold bset, bfilled, nonempty, bclean, bstr. rewrite !bval_back. cbn [str_of].
  apply wt_ptr in Wf as [->|(p & -> & Wf)]; cbn [nonnil andb] in *.
  - destruct (String.eqb_spec s "") as [->|R]; cbn [negb] in *; [injection E as <-; reflexivity|].
    assert (A : exists a, match ack with VPtr (Some (VStr x)) => x | _ => "" end = a /\ match ack with VPtr (Some x) => xml_clean (str_of x) | _ => "" end = xml_clean a).
    { apply wt_ptr in Wf2 as [->|(y & -> & Wy)]; [exists ""; split; reflexivity|]. apply wt_str in Wy as (y' & ->). exists y'. split; reflexivity. }
    destruct A as (a & A1 & A2). rewrite A1 in E. rewrite A2. clear A1 A2 Wf2 ack.
    destruct (nonnil details) eqn:Nd.
    + assert (L : exists l, Forall detail_ok l /\ pointee (annotate details) = map annotate l /\ bpointee (back_of details) = map back_of l).
      { apply wt_ptr in Wf1 as [->|(y & -> & Wy)]; [discriminate|]. apply wt_slice in Wy as [->|(l & -> & Wy)]; [exists []; repeat split; constructor|].
        exists l. split; [|split; reflexivity]. apply everywhere_ptr in Ed. apply everywhere_below in Ed. cbn [below] in Ed. cbn [xsane] in Sd.
        apply list_all_Forall in Ed, Wy, Sd. rewrite Forall_forall in *. intros d D. split; [|split]; auto. }
      destruct L as (l & Hl & P1 & P2). rewrite P1 in E. rewrite P2, <- (detailed_same s a r l Hl) in *.
      destruct (details_ok l Hl) as (M1 & M2 & M3).
      destruct (self_struct fields_licenseExpressionDetailedXML [VStr s; VStr a; VStr r; VSlice (Some (map detail_node l))] "expression-detailed" els eq_refl) as (e & -> & N & Rd); [|exact E|].
      { split; [|split]; cbn [zip_all fields_licenseExpressionDetailedXML f_ty]; repeat apply conj; try exact I; try assumption; try apply many_str; reflexivity. }
      exists e. split; [reflexivity|]. split; [destruct e; [destruct N|reflexivity]|]. intros e' Se T st _.
      destruct (Rd e' 0%N Se T) as (sp' & at_ & ks' & -> & Dk). rewrite waiting_elem. cbn [dec_choice].
      change (match xml_name fields_licenseExpressionDetailedXML with Some n => n | None => "expression-detailed" end) with "expression-detailed" in *.
      change (String.eqb "expression-detailed" "expression") with false. change (String.eqb "expression-detailed" "expression-detailed") with true. cbv iota.
      unfold decode_raw. rewrite Dk. rewrite set_name_id by reflexivity. cbn [bind].
      pose proof (details_back l Hl) as Db. remember (VSlice (Some (map detail_node l))) as dv eqn:Hd. eval_back.
      fold details_field. rewrite Db. reflexivity.
    + rewrite <- (expression_same s a r R) in E.
      destruct (self_struct fields_licenseExpressionXML [VStr s; VStr a; VStr r] "expression" els eq_refl) as (e & -> & N & Rd); [strings_ok|exact E|].
      exists e. split; [reflexivity|]. split; [destruct e; [destruct N|reflexivity]|]. intros e' Se T st _.
      destruct (Rd e' 0%N Se T) as (sp' & at_ & ks' & -> & Dk). rewrite waiting_elem. cbn [dec_choice].
      change (match xml_name fields_licenseExpressionXML with Some n => n | None => "expression" end) with "expression" in *.
      change (String.eqb "expression" "expression") with true. cbv iota. unfold decode_raw. rewrite Dk. rewrite set_name_id by reflexivity. cbn [bind]. eval_back.
      apply wt_ptr in Wf1 as [->|(y & -> & Wy)]; [|discriminate]. reflexivity.
  - destruct (negb (String.eqb s "")); [discriminate|].
    pose proof (ptr_one (TRef "License") p false "license" els eq_refl (everywhere_here _ _ (everywhere_ptr p El) (TRef "License") eq_refl) Wf Sl E) as H.
    rewrite (struct_back (TRef "License") fields_License) in H by (auto; reflexivity). destruct H as (e & -> & N & D).
    rewrite (ptr_struct (TRef "License") fields_License) by (auto; reflexivity).
    exists e. split; [reflexivity|]. split; [destruct e; [destruct N|reflexivity]|]. intros e' Se T st _. specialize (D e' Se T).
    change (element_name (TRef "License") "license") with "license" in N. open_seen e' Se N. rewrite waiting_elem. cbn [dec_choice].
    change (String.eqb "license" "expression") with false. change (String.eqb "license" "expression-detailed") with false. change (String.eqb "license" "license") with true. cbv iota.
    cbn [fresh] in D. rewrite D. reflexivity.
Qed.
Lemma one_licenses v : below one_ok v -> one_at (TRef "Licenses") v.
Proof.
  intros B omit name els W S. destruct (slice_wt (TRef "Licenses") (TRef "LicenseChoice") _ eq_refl W) as ([l|] & -> & Wl); [|intros [= <-]; reflexivity].
  refine (hook_list (TRef "Licenses") (TRef "LicenseChoice") MLicenses enc_choice back_license_choice dec_choice l
    eq_refl eq_refl _ eq_refl eq_refl _ _ _ _ omit name els W S); try discriminate.
  - intros fs v [|n ns] nm; reflexivity.
  - intros fs v [|n ns]; reflexivity.
  - reflexivity.
  - apply (list_adds _ _ _ _ _ (TRef "LicenseChoice")); auto using choice_adds.
Qed.

(** ** Lists of fresh elements *)
Lemma fresh_list b omit name l : base_ty b = true -> Forall (one_at b) l -> list_all (wt b) l -> list_all (xsane b) l ->
  forall els, concat_all (fun n => enc_checked n b omit name) (map annotate l) = Ok els ->
  Forall (named (element_name b name)) els /\
  forall els', Forall2 seen els els' -> Forall short els' ->
    Forall2 (fun e w => fresh e b = Ok w) els' (somes (fun n => checked_back n b omit) (map back_of l)).
Proof.
  intros B H. induction H as [|v l H _ IH]; intros W S els E.
  - injection E as <-. split; [constructor|]. intros els' F _. inversion F. constructor.
  - destruct W as (W & Ws), S as (S & Ss). cbn [map concat_all] in E. apply bind_ok in E as (a & A & E). apply bind_ok in E as (c & C & E).
    injection E as <-. destruct (IH Ws Ss c C) as (N & R). clear IH. cbn [map somes].
    unfold checked_back at 1. unfold enc_checked in A. rewrite bval_back. rewrite nval_annotate in A. destruct (omit && empty_value v)%bool.
    + injection A as <-. split; assumption.
    + specialize (H omit name a W S A). destruct (bback (back_of v) b omit) as [w|].
      * destruct H as (e & -> & Ne & D). split; [constructor; assumption|]. intros els' F T. inversion F as [|? e' ? r S' F']; subst.
        inversion T; subst. constructor; [|apply R; assumption]. rewrite fresh_base by (try exact B; apply (seen_elem _ _ S')). apply D; assumption.
      * subst a. split; assumption.
Qed.
Lemma each_fresh {S} (inv : S -> Prop) (f : kid -> S -> result xerr S) add b n : (forall s v, inv s -> inv (add s v)) ->
  (forall e s, named n e -> inv s -> f (waiting e) s = bind (fresh e b) (fun v => Ok (add s v))) ->
  forall els ws, Forall2 (fun e w => fresh e b = Ok w) els ws -> Forall (named n) els -> forall s, inv s -> each_kid f (map waiting els) s = Ok (fold_left add ws s).
Proof.
  intros Iv H. induction 1 as [|e w els ws E _ IH]; intros N s Is; [reflexivity|]. inversion N; subst.
  destruct e as [t|sp l a ks]; [contradiction|]. change (map waiting (XElem sp l a ks :: els)) with (waiting (XElem sp l a ks) :: map waiting els).
  cbn [each_kid waiting]. change (KElem sp l a (map waiting ks) (dec_elem sp l a (map waiting ks))) with (waiting (XElem sp l a ks)).
  rewrite H by assumption. rewrite E. cbn [bind fold_left]. apply IH; auto.
Qed.
Lemma seen_names n els els' : Forall2 seen els els' -> Forall (named n) els -> Forall (named n) els'.
Proof. induction 1 as [|e e' els els' S _ IH]; intros N; inversion N; subst; constructor; eauto using seen_named. Qed.

(** ** What comes back of lists of structs *)
Lemma struct_checked t fs x omit : kind_of t = KStruct fs -> wt t x -> checked_back (back_of x) t omit = bback (back_of x) t false.
Proof.
  intros K W. destruct (wt_struct t fs x K W) as (vs & -> & _). unfold checked_back. rewrite bval_back. cbn [empty_value]. rewrite Bool.andb_false_r. reflexivity.
Qed.
Definition items (t : ty) (v : val) : list val :=
  somes (fun n => bback n t false) (match v with VPtr (Some (VSlice (Some l))) => map back_of l | _ => [] end).
Lemma items_omit t fs l omit : kind_of t = KStruct fs -> list_all (wt t) l ->
  somes (fun n => checked_back n t omit) (map back_of l) = somes (fun n => bback n t false) (map back_of l).
Proof.
  intros K W. induction l as [|x l IH]; [reflexivity|]. destruct W as (Wx & W). cbn [map somes]. rewrite (struct_checked t fs x omit K Wx), (IH W). reflexivity.
Qed.
Lemma slice_checked t fs v omit : kind_of t = KStruct fs -> wt (TPtr (TSlice t)) v ->
  default (TPtr (TSlice t)) (checked_back (back_of v) (TPtr (TSlice t)) omit) = ptr_if (items t v).
Proof.
  intros K W. apply wt_ptr in W as [->|(x & -> & W)]; [unfold checked_back; destruct (omit && _)%bool; reflexivity|].
  apply wt_slice in W as [->|(l & -> & W)]; unfold checked_back; rewrite bval_back; cbn [empty_value]; rewrite Bool.andb_false_r; [reflexivity|].
  unfold items. rewrite <- (items_omit t fs l omit K W). cbn [back_of bback back_value option_map].
  change (elem_ty (TPtr (TSlice t))) with (TSlice t). change (marshaler (TSlice t)) with MNone. cbv iota. change (elem_ty (TSlice t)) with t.
  destruct (somes _ _); reflexivity.
Qed.
Lemma slice_ptr t fs v : kind_of t = KStruct fs -> wt (TPtr (TSlice t)) v -> bptr (back_of v) (TSlice t) = ptr_if (items t v).
Proof. intros K W. exact (slice_checked t fs v false K W). Qed.

(** A list that is written as children of an element of its own, and read there by field
    number [i] of [ds] *)
Lemma wrapped ds f g i p n t fs v ks : kind_of t = KStruct fs -> base_ty t = true ->
  xml_info f = Some (mkX XElement [p] n true) -> f_ty f = TPtr (TSlice t) -> xml_info g = Some (mkX XElement [] n true) -> f_ty g = TPtr (TSlice t) ->
  is_data t = false -> pair_facts ds [g] [i] = true -> xml_name ds = None -> xml_name [g] = None -> existsb (fun f => String.eqb (f_name f) "XMLName") ds = false -> existsb is_chardata ds = false ->
  everywhere one_ok v -> wt (TPtr (TSlice t)) v -> xsane (TPtr (TSlice t)) v -> enc_field f (annotate v) = Ok ks ->
  ks = [] /\ items t v = [] \/
  exists e, ks = [e] /\ named p e /\ forall sp a kk, seen e (XElem sp p a kk) -> short (XElem sp p a kk) ->
    decode_raw ds sp p a (map waiting kk) = Ok (set_nth i (ptr_if (items t v)) (XmlModel.zeros ds)).
Proof.
  intros K B Xf Tf Xg Tg Dt P Nd Ng Nn Nc Ev W S E.
  destruct (nonnil v) eqn:Nv.
  - right. assert (Sv : exists x, v = VPtr (Some x)) by (destruct v as [| | | |[x|]| |]; try discriminate; eauto). destruct Sv as (x & ->).
    unfold enc_field in E. rewrite Xf in E. cbn [annotate nval] in E. apply bind_ok in E as (els & E & Q). injection Q as <-. rewrite Tf in E.
    assert (E2 : enc_struct [g] (map annotate [VPtr (Some x)]) p = Ok [elem p [] els]).
    { unfold enc_struct. rewrite Ng. cbn [map enc_fields enc_attrs]. unfold enc_field, enc_attr. rewrite Xg, Tg. cbn [annotate nval].
      cbn [annotate] in E. rewrite E. cbn [bind wrap fold_right]. rewrite !app_nil_r. reflexivity. }
    destruct (read_pair ds [g] [i] [VPtr (Some x)] p [elem p [] els] P) as (e & ks & Q & N & _ & R); auto.
    { apply values_one; rewrite Tg; auto. apply many; [exact B|exact Ev]. }
    injection Q as <-. exists (elem p [] els). split; [reflexivity|]. split; [reflexivity|].
    intros sp a kk Se T. destruct (R sp p a kk Se T) as (_ & _ & Q). rewrite Q. f_equal.
    rewrite set_name_id by exact Nn. cbn [spread map]. replace (moved g) with true by (unfold moved; rewrite Xg; reflexivity).
    assert (Cd : forall fs s cur, existsb is_chardata fs = false -> set_chardata fs s cur = cur).
    { clear. induction fs as [|f fs IH]; intros s [|c cur] H; try reflexivity. cbn [existsb] in H. apply Bool.orb_false_iff in H as (H & Hs). cbn [set_chardata].
      rewrite (IH s cur Hs). unfold is_chardata in H. destruct (xml_info f) as [[[] ? ? ?]|]; try reflexivity. discriminate. }
    rewrite Cd by exact Nc. f_equal. unfold back_field. rewrite Xg, Tg. unfold element_name. change (is_data (TPtr (TSlice t))) with (is_data t). rewrite Dt, String.eqb_refl.
    apply (slice_checked t fs); assumption.
  - left. assert (Sv : v = VPtr None) by (apply wt_ptr in W as [->|(x & -> & _)]; [reflexivity|discriminate]). subst v.
    unfold enc_field in E. rewrite Xf in E. injection E as <-. split; reflexivity.
Qed.

(** ** MTools *)
Definition tools_field : field := mkField "LegacyTools" (TPtr (TSlice (TRef "Tool"))) "json:""-"" xml:""tool,omitempty""" false.
Definition tcomps_field : field := mkField "Components" (TPtr (TSlice (TRef "Component"))) "json:""-"" xml:""components>component,omitempty""" false.
Definition tservs_field : field := mkField "Services" (TPtr (TSlice (TRef "Service"))) "json:""-"" xml:""services>service,omitempty""" false.
Definition tcomps_back : field := mkField "Components" (TPtr (TSlice (TRef "Component"))) "json:""-"" xml:""component,omitempty""" false.
Definition tservs_back : field := mkField "Services" (TPtr (TSlice (TRef "Service"))) "json:""-"" xml:""service,omitempty""" false.
Lemma tools_enc a b c name : enc_struct fields_toolsChoiceMarshalXML [a; b; c] name =
  bind (enc_field tools_field a) (fun x => bind (enc_field tcomps_field b) (fun y => bind (enc_field tservs_field c) (fun z => Ok [elem name [] (x ++ y ++ z)%list]))).
Proof.
  unfold enc_struct, fields_toolsChoiceMarshalXML. fold tools_field tcomps_field tservs_field. cbn [enc_fields].
  destruct (enc_field tools_field a) as [x|]; [|reflexivity]. destruct (enc_field tcomps_field b) as [y|]; [|reflexivity].
  destruct (enc_field tservs_field c) as [z|]; [|reflexivity]. cbn [bind]. rewrite app_nil_r. reflexivity.
Qed.
(** The elements of a list that are written side by side *)
Lemma beside f n t fs v ks : kind_of t = KStruct fs -> base_ty t = true -> xml_info f = Some (mkX XElement [] n true) -> f_ty f = TPtr (TSlice t) -> is_data t = false ->
  everywhere one_ok v -> wt (TPtr (TSlice t)) v -> xsane (TPtr (TSlice t)) v -> enc_field f (annotate v) = Ok ks ->
  Forall (named n) ks /\ forall ks', Forall2 seen ks ks' -> Forall short ks' -> Forall2 (fun e w => fresh e t = Ok w) ks' (items t v).
Proof.
  intros K B Xf Tf Dt Ev W S E. unfold enc_field in E. rewrite Xf, Tf, nval_annotate in E.
  assert (Nil : items t v = [] -> ks = [] -> Forall (named n) ks /\ forall ks', Forall2 seen ks ks' -> Forall short ks' -> Forall2 (fun e w => fresh e t = Ok w) ks' (items t v)).
  { intros I ->. split; [constructor|]. intros ks' F _. inversion F. rewrite I. constructor. }
  apply wt_ptr in W as [->|(x & -> & W)]; [injection E as <-; apply Nil; reflexivity|].
  apply wt_slice in W as [->|(l & -> & W)]; [injection E as <-; apply Nil; reflexivity|].
  apply bind_ok in E as (els & E & Q). injection Q as <-. cbn [wrap fold_right].
  assert (E2 : concat_all (fun x => enc_checked x t true n) (map annotate l) = Ok els) by exact E.
  apply everywhere_ptr in Ev. pose proof (elements_ok t (Some l) B Ev l eq_refl) as O. cbn [xsane] in S.
  destruct (fresh_list t true n l B O W S els E2) as (N & R). unfold element_name in N. rewrite Dt in N. split; [exact N|].
  intros ks' F T. unfold items. rewrite <- (items_omit t fs l true K W). apply R; assumption.
Qed.
Lemma below_nth vs i v : below one_ok (VStruct vs) -> nth_error vs i = Some v -> everywhere one_ok v.
Proof. intros B N. apply (below_part vs v B), (nth_error_In _ _ N). Qed.
Definition state_of (l : list val) : val := match l with [] => VSlice None | _ => VSlice (Some l) end.
Lemma tools_app (s : list val * val * val) l : fold_left (fun s v => match s with (t, c, w) => ((t ++ [v])%list, c, w) end) l s = match s with (t, c, w) => ((t ++ l)%list, c, w) end.
Proof. revert s. induction l as [|x l IH]; intros ((t & c) & w); [cbn; rewrite app_nil_r; reflexivity|]. cbn [fold_left]. rewrite IH, <- app_assoc. reflexivity. Qed.
Lemma hook_tools vs : below one_ok (VStruct vs) -> hook_at (TRef "ToolsChoice") MTools fields_ToolsChoice vs.
Proof.
  intros Bl name els Wz S E. unfold fields_ToolsChoice in Wz. unzip Wz. rename v into tools, v0 into comps, v1 into servs. destruct S as (St & Sc & Ss & _). cbn [f_ty] in *.
  pose proof (below_nth _ 0%nat _ Bl eq_refl) as Et. pose proof (below_nth _ 1%nat _ Bl eq_refl) as Ec. pose proof (below_nth _ 2%nat _ Bl eq_refl) as Es. clear Bl.
  cbn [map back_method]. unfold bset. rewrite !bval_back.
  rewrite (slice_ptr (TRef "Tool") fields_Tool tools), (slice_ptr (TRef "Component") fields_Component comps), (slice_ptr (TRef "Service") fields_Service servs) by (auto; reflexivity).
  cbn [map marshal] in E. unfold set in E. rewrite !nval_annotate in E. change nil_node with (annotate (VPtr None)) in E.
  assert (G : forall tv cv sv, wt (TPtr (TSlice (TRef "Tool"))) tv -> wt (TPtr (TSlice (TRef "Component"))) cv -> wt (TPtr (TSlice (TRef "Service"))) sv ->
     xsane (TPtr (TSlice (TRef "Tool"))) tv -> xsane (TPtr (TSlice (TRef "Component"))) cv -> xsane (TPtr (TSlice (TRef "Service"))) sv ->
     everywhere one_ok tv -> everywhere one_ok cv -> everywhere one_ok sv -> (items (TRef "Tool") tv = [] \/ (items (TRef "Component") cv = [] /\ items (TRef "Service") sv = [])) ->
     enc_struct fields_toolsChoiceMarshalXML [annotate tv; annotate cv; annotate sv] name = Ok els ->
     exists e, els = [e] /\ named name e /\ forall sp l a ks, seen e (XElem sp l a ks) -> (0 + 2 * tall (XElem sp l a ks) <= limit + 1)%N ->
       unmarshal MTools (TRef "ToolsChoice") sp l a (map waiting ks) (VStruct (XmlModel.zeros fields_ToolsChoice)) =
       Ok (VStruct [ptr_if (items (TRef "Tool") tv); ptr_if (items (TRef "Component") cv); ptr_if (items (TRef "Service") sv)])).
  { clear. intros tv cv sv Wt Wc Ws St Sc Ss Et Ec Es One E. rewrite tools_enc in E. apply bind_ok in E as (x & X & E). apply bind_ok in E as (y & Y & E). apply bind_ok in E as (z & Z & E). injection E as <-.
    exists (elem name [] (x ++ y ++ z)). split; [reflexivity|]. split; [reflexivity|]. intros sp l a ks Se T.
    apply seen_inv in Se as (sp' & ks' & Q & F & _). injection Q as -> -> -> ->.
    destruct (beside tools_field "tool" (TRef "Tool") fields_Tool tv x eq_refl eq_refl eq_refl eq_refl eq_refl Et Wt St X) as (Nx & Rx).
    pose proof (wrapped fields_toolsChoiceUnmarshalXML tcomps_field tcomps_back 0 "components" "component" (TRef "Component") fields_Component cv y eq_refl eq_refl eq_refl eq_refl eq_refl eq_refl
      eq_refl eq_refl eq_refl eq_refl eq_refl eq_refl Ec Wc Sc Y) as Hy.
    pose proof (wrapped fields_toolsChoiceUnmarshalXML tservs_field tservs_back 1 "services" "service" (TRef "Service") fields_Service sv z eq_refl eq_refl eq_refl eq_refl eq_refl eq_refl
      eq_refl eq_refl eq_refl eq_refl eq_refl eq_refl Es Ws Ss Z) as Hz.
    assert (Nm : forall n l, Forall (named n) l -> forallb is_elem l = true) by (clear; intros n l; induction 1 as [|e l H _ IH]; [reflexivity|]; destruct e; [destruct H|exact IH]).
    assert (Ey : forallb is_elem y = true) by (destruct Hy as [(-> & _)|(e & -> & N & _)]; [reflexivity|]; destruct e; [destruct N|reflexivity]).
    assert (Ez : forallb is_elem z = true) by (destruct Hz as [(-> & _)|(e & -> & N & _)]; [reflexivity|]; destruct e; [destruct N|reflexivity]).
    rewrite (elems_filter (x ++ y ++ z)) in F by (rewrite !forallb_app, (Nm _ _ Nx), Ey, Ez; reflexivity).
    apply Forall2_app_inv_l in F as (x' & yz' & Fx & F & Eq). apply Forall2_app_inv_l in F as (y' & z' & Fy & Fz & ->).
    pose proof (short_kids sp' name [] ks' T) as Sh. rewrite Eq in Sh. apply Forall_app in Sh as (Shx & Sh). apply Forall_app in Sh as (Shy & Shz).
    cbn [unmarshal]. rewrite each_filter, Eq, !map_app, !each_app.
    rewrite (each_fresh (fun _ => True) dec_tools (fun s v => match s with (t, c, w) => ((t ++ [v])%list, c, w) end) (TRef "Tool") "tool" (fun _ _ _ => I)) with (ws := items (TRef "Tool") tv).
    2: { intros e ((t & c) & w) N _. destruct e as [|sp l a ks]; [destruct N|]. cbn [named] in N. subst l. reflexivity. }
    2: { apply Rx; assumption. }
    2: { apply (seen_names _ _ _ Fx Nx). }
    2: exact I.
    rewrite tools_app. cbn [bind app]. rewrite each_app.
    assert (Cy : each_kid dec_tools (map waiting y') (items (TRef "Tool") tv, VSlice None, VSlice None) = Ok (items (TRef "Tool") tv, state_of (items (TRef "Component") cv), VSlice None)).
    { destruct Hy as [(-> & ->)|(e & -> & N & D)]; [inversion Fy; reflexivity|]. inversion Fy as [|? e' ? r S' F']; subst. inversion F'; subst. inversion Shy as [|? ? Sh1 _]; subst.
      open_seen e' S' N. cbn [map]. rewrite waiting_elem. cbn [each_kid dec_tools]. change (String.eqb "components" "tool") with false. change (String.eqb "components" "components") with true. cbv iota.
      rewrite (D _ _ _ S' Sh1). cbn [bind XmlModel.zeros map fields_toolsChoiceUnmarshalXML set_nth]. destruct (items (TRef "Component") cv); reflexivity. }
    rewrite Cy. cbn [bind].
    assert (Cz : each_kid dec_tools (map waiting z') (items (TRef "Tool") tv, state_of (items (TRef "Component") cv), VSlice None)
       = Ok (items (TRef "Tool") tv, state_of (items (TRef "Component") cv), state_of (items (TRef "Service") sv))).
    { destruct Hz as [(-> & ->)|(e & -> & N & D)]; [inversion Fz; reflexivity|]. inversion Fz as [|? e' ? r S' F']; subst. inversion F'; subst. inversion Shz as [|? ? Sh1 _]; subst.
      open_seen e' S' N. cbn [map]. rewrite waiting_elem. cbn [each_kid dec_tools]. change (String.eqb "services" "tool") with false. change (String.eqb "services" "components") with false.
      change (String.eqb "services" "services") with true. cbv iota.
      rewrite (D _ _ _ S' Sh1). cbn [bind XmlModel.zeros map fields_toolsChoiceUnmarshalXML set_nth]. destruct (items (TRef "Service") sv); reflexivity. }
    rewrite Cz. cbn [bind]. clear - One. 
    destruct (items (TRef "Tool") tv) as [|t1 ts], (items (TRef "Component") cv) as [|c1 cs], (items (TRef "Service") sv) as [|s1 ss]; try reflexivity; exfalso; destruct One as [O|(O1 & O2)]; discriminate. }
  assert (Nil : forall t v, nonnil v = false -> wt (TPtr (TSlice t)) v -> v = VPtr None /\ items t v = []).
  { clear. intros t v N W. apply wt_ptr in W as [->|(x & -> & _)]; [split; reflexivity|discriminate]. }
  destruct (nonnil tools) eqn:Nt; cbn [andb orb] in E |- *.
  - destruct (nonnil comps) eqn:Nc; [discriminate|]. destruct (nonnil servs) eqn:Ns; [discriminate|]. cbn [orb] in E.
    destruct (Nil _ _ Nc Wf0) as (-> & _). destruct (Nil _ _ Ns Wf1) as (-> & _).
    apply (G tools (VPtr None) (VPtr None)); auto.
  - destruct (Nil _ _ Nt Wf) as (-> & I0). destruct (nonnil comps || nonnil servs)%bool; [|injection E as <-; reflexivity].
    apply (G (VPtr None) comps servs); auto.
Qed.
End Limits.
