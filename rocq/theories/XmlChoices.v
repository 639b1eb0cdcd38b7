(** What XML documents decode to: well-typed values whose choices have at most one
    alternative. Used by C25. *)
From Verif Require Import Base Types Univ TypeTable Wt ReifyBase Reify ReifyFacts Numbers Consts LinkModel GobProofs JsonModel JsonProofs JsonSpec JsonDecode JsonHooks JsonBom XmlModel XmlTable XmlProofs XmlSelf XmlLists XmlEvidence XmlRound XmlNeat XmlTop XmlLossProofs.
From Coq Require Import Lia.
Local Open Scope string_scope.

Definition nothing (v : val) : Prop := v = VPtr None.
Definition one_alternative (n : string) (vs : list val) : Prop :=
  if String.eqb n "ToolsChoice" then match vs with [tools; comps; servs] => nothing tools \/ (nothing comps /\ nothing servs) | _ => False end
  else if existsb (String.eqb n) ["EvidenceIdentityChoice"; "CertificateState"; "CertificateExtension"; "PatentChoice"]
  then match vs with [a; b] => nothing a \/ nothing b | _ => False end
  else if String.eqb n "MLDatasetChoice" then match vs with [ref; data] => ref = VStr "" \/ nothing data | _ => False end
  else if String.eqb n "EnvironmentVariableChoice" then match vs with [prop; value] => nothing prop \/ value = VStr "" | _ => False end
  else if String.eqb n "LicenseChoice" then match vs with license :: expression :: _ => nothing license \/ expression = VStr "" | _ => False end
  else True.
Definition checked (t : ty) (vs : list val) : Prop := match t with TRef n => one_alternative n vs | _ => True end.
Fixpoint decent (t : ty) (v : val) {struct v} : Prop :=
  match v with
  | VStr _ => kind_of t = KStr
  | VInt _ => kind_of t = KInt
  | VBool _ => kind_of t = KBool
  | VFlt _ => kind_of t = KFlt
  | VPtr p => match kind_of t with KPtr t' => match p with Some x => decent t' x | None => True end | _ => False end
  | VSlice s => match kind_of t with KSlice t' => match s with Some l => list_all (decent t') l | None => True end | _ => False end
  | VStruct vs => match kind_of t with KStruct fs => zip_all (fun f x => decent (f_ty f) x) vs fs /\ checked t vs | _ => False end
  end.
Definition zipd (vs : list val) (fs : list field) : Prop := zip_all (fun f x => decent (f_ty f) x) vs fs.

Lemma decent_wt v : forall t, decent t v -> wt t v.
Proof.
  induction v as [s|z|b|f| |x IH| |l IH|vs IH] using val_induction; intros t F; cbn [decent wt] in *; try (exact F); try (exact (proj1 F)).
  - destruct (kind_of t); try contradiction. apply IH, F.
  - destruct (kind_of t) as [| | | | |t'| |]; try contradiction. rewrite list_all_forall in *. rewrite Forall_forall in *. auto.
  - destruct (kind_of t) as [| | | | | |fs|]; try contradiction. destruct F as (F & _). revert F. apply (zip_mono (fun f x => decent (f_ty f) x) (fun f x => wt (f_ty f) x)).
    rewrite Forall_forall in *. auto.
Qed.
Lemma zip_combine {A B} (P : A -> B -> Prop) : forall (bs : list B) (as_ : list A), zip_all P bs as_ -> forall a b, In (a, b) (combine as_ bs) -> P a b.
Proof. induction bs as [|y bs IH]; intros [|x l] Z a b I; cbn in *; try contradiction. destruct Z as (Z1 & Z2). destruct I as [[= -> ->]|I]; [exact Z1|exact (IH _ Z2 _ _ I)]. Qed.
Lemma combine_map {A B C} (f : A -> B) : forall (l : list A) (m : list C), combine (map f l) m = map (fun p => (f (fst p), snd p)) (combine l m).
Proof. induction l as [|x l IH]; intros [|y m]; cbn; try reflexivity. rewrite IH. reflexivity. Qed.
Lemma decent_part t v t' v' : decent t v -> In (t', v') (all_parts t v) -> decent t' v'.
Proof.
  destruct v as [| | | |[x|]|[l|]|vs]; cbn [decent all_parts]; try contradiction; unfold elem_ty, fields_of; destruct (kind_of t) as [| | | |u|u|fs|]; try contradiction.
  - intros D [[= <- <-]|[]]. exact D.
  - intros D I. apply in_map_iff in I as (x & [= <- <-] & I). apply list_all_forall in D. rewrite Forall_forall in D. apply D, I.
  - intros (D & _) I. rewrite combine_map in I. apply in_map_iff in I as ((f, x) & [= <- <-] & I). exact (zip_combine _ _ _ D f x I).
Qed.
Lemma decent_inside t v t' v' : inside t v t' v' -> decent t v -> decent t' v'.
Proof. induction 1 as [|t v t1 v1 t2 v2 P _ IH]; [trivial|]. intros D. apply IH. eapply decent_part; eassumption. Qed.

(** Types that are only decoded into fresh values. *)
Fixpoint fresh_only (t : ty) : bool :=
  match t with
  | TPtr t' => fresh_only t'
  | TRef n => existsb (String.eqb n) ["CertificateState"; "CertificateExtension"; "MLDatasetChoice"]
  | _ => false
  end.
Definition start (t : ty) (cur : val) : Prop := decent t cur /\ (fresh_only t = true -> cur = zero_of t).
Lemma zero_checked m : forall t fs, kind_of t = KStruct fs -> checked t (map (fun f => zero_n m (f_ty f)) fs).
Proof.
  intros [| | | | | | |n] fs K; try exact I. cbn [checked]. unfold one_alternative.
  destruct (String.eqb_spec n "ToolsChoice") as [->|_]; [injection K as <-; destruct m; left; reflexivity|].
  destruct (existsb (String.eqb n) _) eqn:E.
  - cbn [existsb] in E. repeat (apply Bool.orb_prop in E as [E|E]; [apply String.eqb_eq in E as ->; injection K as <-; destruct m; left; reflexivity|]). discriminate.
  - clear E. destruct (String.eqb_spec n "MLDatasetChoice") as [->|_]; [injection K as <-; destruct m; left; reflexivity|].
    destruct (String.eqb_spec n "EnvironmentVariableChoice") as [->|_]; [injection K as <-; destruct m; left; reflexivity|].
    destruct (String.eqb_spec n "LicenseChoice") as [->|_]; [injection K as <-; destruct m; left; reflexivity|exact I].
Qed.
Lemma zero_decent_n n : forall t, flat n t = true -> decent t (zero_n n t).
Proof.
  induction n as [|n IH]; intros t F; cbn [flat zero_n] in *; destruct (kind_of t) as [| | | |t'|t'|fs|] eqn:K; try discriminate F; cbn [decent]; rewrite ?K; auto.
  split; [|apply zero_checked, K]. clear K. induction fs as [|f fs IHf]; [exact I|]. cbn [forallb] in F. apply andb_prop in F as (F1 & F2). cbn. split; [apply IH, F1|apply IHf, F2].
Qed.
Lemma zero_decent t : kind_of t <> KBad -> decent t (zero_of t).
Proof.
  intros K. apply zero_decent_n. destruct t; try reflexivity.
  destruct (assoc name defs) eqn:E; [|cbn [kind_of] in K; rewrite E in K; congruence].
  apply assoc_in in E. pose proof defs_flat as D. rewrite forallb_forall in D. apply flat_mono. exact (D _ E).
Qed.
Lemma zero_start t : wk t = true -> start t (zero_of t).
Proof. intros K. split; [apply zero_decent, wk_kind, K|trivial]. Qed.

(** Types that no element is decoded into: their values are built by the methods of the
    types around them. *)
Fixpoint decodable (t : ty) : bool :=
  match t with
  | TPtr t' | TSlice t' => decodable t'
  | TRef n => negb (existsb (String.eqb n) ["EvidenceIdentityChoice"; "PatentChoice"; "EnvironmentVariableChoice"; "LicenseChoice"])
  | _ => true
  end.
Definition dec_good (dec : xdecoder) : Prop := forall t depth cur v, wk t = true -> decodable t = true -> start t cur -> dec t depth cur = Ok v -> decent t v.
Fixpoint good_kid (k : kid) : Prop := match k with KText _ => True | KElem _ _ _ ks dec => dec_good dec /\ list_all good_kid ks end.

Definition ok_field (f : field) : bool :=
  (wk (f_ty f) && negb (fresh_only (f_ty f)) && (negb (is_element f) || decodable (f_ty f)) &&
   match xml_info f with Some (mkX XCharData _ _ _) => match kind_of (f_ty f) with KStr => true | _ => false end | _ => true end &&
   (negb (String.eqb (f_name f) "XMLName") || match f_ty f with TRef n => String.eqb n "xml.Name" | _ => false end))%bool.
Lemma defs_ok : forallb (fun d => match snd d with DStruct fs => forallb ok_field fs | DAlias _ => true end) defs = true.
Proof. vm_compute. reflexivity. Qed.
Lemma struct_ok t fs : kind_of t = KStruct fs -> forallb ok_field fs = true.
Proof. intros K. apply kind_struct_in in K as (n & _ & I). pose proof defs_ok as D. rewrite forallb_forall in D. exact (D _ I). Qed.

Lemma bind_ok {E A B} (r : result E A) (f : A -> result E B) y : bind r f = Ok y -> exists x, r = Ok x /\ f x = Ok y.
Proof. destruct r; [|discriminate]. cbn. eauto. Qed.
Lemma ok_at fs i f : forallb ok_field fs = true -> nth_error fs i = Some f -> ok_field f = true.
Proof. intros F N. rewrite forallb_forall in F. apply F. eapply nth_error_In, N. Qed.
Lemma dec_at_good fs i dec depth cur vs : forallb ok_field fs = true -> dec_good dec -> zipd cur fs -> (forall f, nth_error fs i = Some f -> is_element f = true) -> dec_at fs i dec depth cur = Ok vs -> zipd vs fs.
Proof.
  intros F G Z N E. unfold dec_at in E. destruct (nth_error fs i) as [f|] eqn:Nf; [|discriminate]. destruct (nth_error cur i) as [c|] eqn:Nc; [|discriminate].
  apply bind_ok in E as (v & E & [= <-]). pose proof (ok_at _ _ _ F Nf) as O. unfold ok_field in O. rewrite !Bool.andb_true_iff, Bool.negb_true_iff in O. destruct O as ((((O1 & O2) & O3) & _) & _). rewrite (N _ eq_refl) in O3.
  eapply zip_set; [exact Z|exact Nf|]. eapply G; [exact O1|exact O3| |exact E]. split; [exact (zip_nth _ _ _ _ _ _ Z Nf Nc)|]. rewrite O2. discriminate.
Qed.
Lemma place_element parent l i f j : place_of parent l i f = Some (Here j) -> j = i /\ is_element f = true.
Proof.
  unfold place_of, is_element. destruct (xml_info f) as [[[] [|q [|? ?]] n ?]|]; try discriminate; destruct parent; cbn; try discriminate;
    try (destruct (String.eqb _ _); try discriminate; intros [= <-]; auto).
  destruct (String.eqb q s && String.eqb n l)%bool; [|discriminate]. intros [= <-]. auto.
Qed.
Lemma find_element parent l fs : forall k j, find_place parent l k fs = Some (Here j) -> exists i, j = (k + i)%nat /\ forall f, nth_error fs i = Some f -> is_element f = true.
Proof.
  induction fs as [|f fs IH]; intros k j E; cbn [find_place] in E; [discriminate|]. destruct (place_of parent l k f) as [p|] eqn:P.
  - injection E as ->. apply place_element in P as (-> & P). exists O. split; [lia|]. intros g [= <-]. exact P.
  - apply IH in E as (i & -> & E). exists (S i). split; [lia|exact E].
Qed.
Lemma dec_inside_good fs parent depth ks : forallb ok_field fs = true -> list_all good_kid ks -> forall cur vs, zipd cur fs -> dec_inside fs parent depth ks cur = Ok vs -> zipd vs fs.
Proof.
  intros F. induction ks as [|[s|sp l a inner dec] ks IH]; intros G cur vs Z E; cbn [dec_inside] in E.
  - injection E as <-. exact Z.
  - exact (IH (proj2 G) _ _ Z E).
  - destruct G as ((Gd & _) & G). apply bind_ok in E as (c1 & E1 & E). apply (IH G c1 vs); [|exact E].
    destruct (find_place (Some parent) l 0 fs) as [[i|p]|] eqn:P; try (injection E1 as <-; exact Z). apply find_element in P as (j & -> & P). exact (dec_at_good _ _ _ _ _ _ F Gd Z P E1).
Qed.
Lemma dec_kids_good fs depth ks : forallb ok_field fs = true -> list_all good_kid ks -> forall cur vs, zipd cur fs -> dec_kids fs depth ks cur = Ok vs -> zipd vs fs.
Proof.
  intros F. induction ks as [|[s|sp l a inner dec] ks IH]; intros G cur vs Z E; cbn [dec_kids] in E.
  - injection E as <-. exact Z.
  - exact (IH (proj2 G) _ _ Z E).
  - destruct G as ((Gd & Gi) & G). apply bind_ok in E as (c1 & E1 & E). apply (IH G c1 vs); [|exact E].
    destruct (find_place None l 0 fs) as [[i|p]|] eqn:P; [apply find_element in P as (j & -> & P); exact (dec_at_good _ _ _ _ _ _ F Gd Z P E1)|exact (dec_inside_good _ _ _ _ F Gi _ _ Z E1)|injection E1 as <-; exact Z].
Qed.
Lemma copy_good t s v : copy_value t s = Ok v -> decent t v.
Proof.
  unfold copy_value. destruct (kind_of t) eqn:K; try discriminate; [intros [= <-]; exact K|..]; (destruct (String.eqb s ""); [intros [= <-]; exact K|]).
  - destruct (atoi _); try discriminate. intros [= <-]. exact K.
  - destruct (parse_bool _); try discriminate. intros [= <-]. exact K.
  - destruct (read_xml_float _ _); try discriminate. intros [= <-]. exact K.
Qed.
Lemma attr_good t s v : dec_attr t s = Ok v -> decent t v.
Proof.
  unfold dec_attr. destruct (kind_of t) as [| | | |t'| | |] eqn:K; try apply copy_good.
  intros E. apply bind_ok in E as (x & E & [= <-]). cbn [decent some_ptr]. rewrite K. apply copy_good in E. exact E.
Qed.
Lemma set_attr_good fs n s : forall cur vs, zipd cur fs -> set_attr fs n s cur = Ok vs -> zipd vs fs.
Proof.
  induction fs as [|f fs IH]; intros [|c cur] vs Z E; cbn [set_attr] in E; try (injection E as <-; exact Z); try contradiction.
  apply bind_ok in E as (v & E1 & E). apply bind_ok in E as (vs' & E2 & [= <-]). destruct Z as (Z1 & Z2). split; [|exact (IH _ _ Z2 E2)].
  destruct (xml_info f) as [[[] ? m ?]|]; try (injection E1 as <-; exact Z1). destruct (String.eqb m n); [apply attr_good in E1; exact E1|injection E1 as <-; exact Z1].
Qed.
Lemma set_attrs_good fs attrs : forall cur vs, zipd cur fs -> set_attrs fs attrs cur = Ok vs -> zipd vs fs.
Proof.
  induction attrs as [|[n s] attrs IH]; intros cur vs Z E; cbn [set_attrs] in E; [injection E as <-; exact Z|].
  apply bind_ok in E as (c1 & E1 & E). exact (IH _ _ (set_attr_good _ _ _ _ _ Z E1) E).
Qed.
Lemma set_chardata_good fs s : forall cur, forallb ok_field fs = true -> zipd cur fs -> zipd (set_chardata fs s cur) fs.
Proof.
  induction fs as [|f fs IH]; intros [|c cur] F Z; cbn [set_chardata]; try contradiction; [exact I|]. cbn [forallb] in F. apply andb_prop in F as (F1 & F2). destruct Z as (Z1 & Z2).
  split; [|exact (IH _ F2 Z2)]. unfold ok_field in F1. destruct (xml_info f) as [[[] ? ? ?]|]; try exact Z1. rewrite !Bool.andb_true_iff in F1. destruct F1 as ((_ & F1) & _).
  cbn [decent]. destruct (kind_of (f_ty f)); try discriminate. reflexivity.
Qed.
Lemma set_name_good fs sp l : forall cur, forallb ok_field fs = true -> zipd cur fs -> zipd (set_name fs sp l cur) fs.
Proof.
  induction fs as [|f fs IH]; intros [|c cur] F Z; cbn [set_name]; try contradiction; [exact I|]. cbn [forallb] in F. apply andb_prop in F as (F1 & F2). destruct Z as (Z1 & Z2).
  split; [|exact (IH _ F2 Z2)]. destruct (String.eqb (f_name f) "XMLName") eqn:E; [|exact Z1]. unfold ok_field in F1. rewrite !Bool.andb_true_iff, E in F1. destruct F1 as (_ & F1).
  cbn [negb orb] in F1. destruct (f_ty f) as [| | | | | | |n]; try discriminate. apply String.eqb_eq in F1 as ->. vm_compute. auto.
Qed.
Lemma dec_struct_good fs sp l attrs ks depth cur vs : forallb ok_field fs = true -> list_all good_kid ks -> zipd cur fs -> dec_struct fs sp l attrs ks depth cur = Ok vs -> zipd vs fs.
Proof.
  intros F G Z E. unfold dec_struct in E. destruct (match xml_name fs with Some n => negb (n =? l)%string | None => false end); [discriminate|].
  apply bind_ok in E as (c1 & E1 & E). apply bind_ok in E as (c2 & E2 & [= <-]). apply set_chardata_good; [exact F|].
  eapply dec_kids_good; [exact F|exact G| |exact E2]. eapply set_attrs_good; [|exact E1]. apply set_name_good; assumption.
Qed.
Lemma zeros_good fs : forallb ok_field fs = true -> zipd (zeros fs) fs.
Proof.
  induction fs as [|f fs IH]; intros F; [exact I|]. cbn [forallb] in F. apply andb_prop in F as (F1 & F2). split; [|exact (IH F2)].
  apply zero_decent, wk_kind. unfold ok_field in F1. rewrite !Bool.andb_true_iff in F1. apply F1.
Qed.
Lemma raw_good fs sp l attrs ks vs : forallb ok_field fs = true -> list_all good_kid ks -> decode_raw fs sp l attrs ks = Ok vs -> zipd vs fs.
Proof. intros F G E. eapply dec_struct_good; [exact F|exact G| |exact E]. apply zeros_good, F. Qed.
Lemma fresh_good dec t v : dec_good dec -> (wk t && decodable t)%bool = true -> decode_fresh dec t = Ok v -> decent t v.
Proof. intros G K E. apply andb_prop in K as (K & Kd). eapply G; [exact K|exact Kd|apply zero_start, K|exact E]. Qed.
Lemma decent_struct n fs vs : kind_of (TRef n) = KStruct fs -> zipd vs fs -> one_alternative n vs -> decent (TRef n) (VStruct vs).
Proof. intros K Z O. cbn [decent]. rewrite K. split; assumption. Qed.
Lemma decent_some t v : decent t v -> decent (TPtr t) (some_ptr v).
Proof. trivial. Qed.
Lemma decent_ptr_if t l : list_all (decent t) l -> decent (TPtr (TSlice t)) (ptr_if l).
Proof. destruct l; [intros _; exact I|]. intros H. exact H. Qed.
Lemma each_good {S} (f : kid -> S -> result xerr S) (P : S -> Prop) ks : (forall k s s', good_kid k -> P s -> f k s = Ok s' -> P s') ->
  list_all good_kid ks -> forall s s', P s -> each_kid f ks s = Ok s' -> P s'.
Proof.
  intros H. induction ks as [|k ks IH]; intros G s s' Ps E; cbn [each_kid] in E; [injection E as <-; exact Ps|]. destruct G as (G1 & G2).
  destruct k; [exact (IH G2 _ _ Ps E)|]. apply bind_ok in E as (s1 & E1 & E). apply (IH G2 s1 s'); [|exact E]. eapply H; [exact G1|exact Ps|exact E1].
Qed.
Lemma list_all_app {A} (P : A -> Prop) l m : list_all P (l ++ m)%list <-> list_all P l /\ list_all P m.
Proof. rewrite !list_all_forall. apply Forall_app. Qed.
Lemma all_snoc {A} (P : A -> Prop) l x : list_all P l -> P x -> list_all P (l ++ [x])%list.
Proof. intros H Px. apply list_all_app. split; [exact H|]. cbn. auto. Qed.

(** ** The UnmarshalXML methods *)
Ltac shape Z := unfold zipd in Z; cbn [zip_all f_ty] in Z.
Lemma environment_good k l l' : good_kid k -> list_all (decent (TRef "EnvironmentVariableChoice")) l -> dec_environment k l = Ok l' -> list_all (decent (TRef "EnvironmentVariableChoice")) l'.
Proof.
  intros G L E. destruct k as [s|sp local a ks dec]; cbn [dec_environment] in E; [injection E as <-; exact L|]. destruct G as (G & _).
  destruct (String.eqb local "value"); [|destruct (String.eqb local "environmentVar"); [|discriminate]]; apply bind_ok in E as (v & E & [= <-]); apply all_snoc; try exact L.
  - apply fresh_good in E; [|exact G|reflexivity]. apply (decent_struct _ fields_EnvironmentVariableChoice); [reflexivity|split; [exact I|split; [exact E|exact I]]|left; reflexivity].
  - apply fresh_good in E; [|exact G|reflexivity]. apply (decent_struct _ fields_EnvironmentVariableChoice); [reflexivity|split; [exact E|split; [reflexivity|exact I]]|right; reflexivity].
Qed.
Lemma detail_good d : decent (TRef "licenseExpressionDetailXML") d -> decent (TRef "LicenseExpressionDetail") (detail_back d).
Proof.
  intros D. destruct d as [| | | |[]|[]|vs]; cbn [decent] in D; try discriminate; try contradiction. change (kind_of (TRef "licenseExpressionDetailXML")) with (KStruct fields_licenseExpressionDetailXML) in D.
  destruct D as (Z & _). unfold fields_licenseExpressionDetailXML in Z. destruct vs as [|id [|text [|url [|]]]]; shape Z; try tauto. destruct Z as (Z1 & Z2 & Z3 & _).
  cbn [detail_back]. apply (decent_struct _ fields_LicenseExpressionDetail); [reflexivity| |exact I]. split; [exact Z1|]. split; [reflexivity|]. split; [exact Z2|]. split; [exact Z3|exact I].
Qed.
Lemma str_if_good s : decent (TPtr TStr) (str_if s).
Proof. unfold str_if. destruct (String.eqb s ""); reflexivity || exact I. Qed.

Lemma choice_good k l l' : good_kid k -> list_all (decent (TRef "LicenseChoice")) l -> dec_choice k l = Ok l' -> list_all (decent (TRef "LicenseChoice")) l'.
Proof.
  intros G L E. destruct k as [s|sp local a ks dec]; cbn [dec_choice] in E; [injection E as <-; exact L|]. destruct G as (G & Gk).
  destruct (String.eqb local "expression"); [|destruct (String.eqb local "expression-detailed"); [|destruct (String.eqb local "license"); [|discriminate]]]; apply bind_ok in E as (r & E & E').
  - apply raw_good in E; [|reflexivity|exact Gk]. unfold fields_licenseExpressionXML in E. destruct r as [|x [|y [|z [|]]]]; shape E; try tauto. injection E' as <-.
    destruct E as (E1 & E2 & E3 & _). apply all_snoc; [exact L|]. apply (decent_struct _ fields_LicenseChoice); [reflexivity| |left; reflexivity].
    split; [exact I|]. split; [exact E1|]. split; [exact I|]. split; [apply str_if_good|]. split; [exact E3|]. split; [exact I|]. split; exact I.
  - apply raw_good in E; [|reflexivity|exact Gk]. unfold fields_licenseExpressionDetailedXML in E. destruct r as [|x [|y [|z [|d [|]]]]]; shape E; try tauto. injection E' as <-.
    destruct E as (E1 & E2 & E3 & E4 & _). apply all_snoc; [exact L|]. apply (decent_struct _ fields_LicenseChoice); [reflexivity| |left; reflexivity].
    split; [exact I|]. split; [exact E1|]. split; [|split; [apply str_if_good|split; [exact E3|split; [exact I|split; exact I]]]].
    apply decent_ptr_if. apply list_all_forall, Forall_map, Forall_forall. intros u Iu. apply detail_good. destruct d as [| | | |[]|[m|]|]; cbn in E4; try discriminate; try contradiction.
    apply list_all_forall in E4. rewrite Forall_forall in E4. apply E4, Iu.
  - apply fresh_good in E; [|exact G|reflexivity]. injection E' as <-. apply all_snoc; [exact L|]. apply (decent_struct _ fields_LicenseChoice); [reflexivity| |right; reflexivity].
    split; [exact E|]. split; [reflexivity|]. split; [exact I|]. split; [exact I|]. split; [reflexivity|]. split; [exact I|]. split; exact I.
Qed.
Definition tools_ok (s : list val * val * val) : Prop :=
  match s with (tools, comps, servs) => list_all (decent (TRef "Tool")) tools /\ decent (TSlice (TRef "Component")) comps /\ decent (TSlice (TRef "Service")) servs end.
Lemma slice_or_good t p old : decent (TPtr (TSlice t)) p -> decent (TSlice t) old -> decent (TSlice t) (slice_or p old).
Proof. intros P O. destruct p as [| | | |[x|]|[]|]; try exact O. exact P. Qed.
Lemma tools_good k s s' : good_kid k -> tools_ok s -> dec_tools k s = Ok s' -> tools_ok s'.
Proof.
  intros G L E. destruct s as ((tools, comps), servs). destruct L as (L1 & L2 & L3). destruct k as [s|sp local a ks dec]; cbn [dec_tools] in E; [injection E as <-; repeat split; assumption|]. destruct G as (G & Gk).
  destruct (String.eqb local "tool"); [|destruct (String.eqb local "components"); [|destruct (String.eqb local "services"); [|discriminate]]]; apply bind_ok in E as (r & E & E').
  - apply fresh_good in E; [|exact G|reflexivity]. injection E' as <-. split; [apply all_snoc; assumption|]. split; assumption.
  - apply raw_good in E; [|reflexivity|exact Gk]. unfold fields_toolsChoiceUnmarshalXML in E. destruct r as [|x [|y [|]]]; shape E; try tauto. injection E' as <-.
    split; [exact L1|]. split; [apply slice_or_good; tauto|exact L3].
  - apply raw_good in E; [|reflexivity|exact Gk]. unfold fields_toolsChoiceUnmarshalXML in E. destruct r as [|x [|y [|]]]; shape E; try tauto. injection E' as <-.
    split; [exact L1|]. split; [exact L2|apply slice_or_good; tauto].
Qed.
Definition evidence_fields : list field := tl fields_Evidence.
Definition evidence_ok (s : list val * list val) : Prop := list_all (decent (TRef "EvidenceIdentity")) (fst s) /\ zipd (snd s) evidence_fields.
Lemma evidence_good k s s' : good_kid k -> evidence_ok s -> dec_evidence k s = Ok s' -> evidence_ok s'.
Proof.
  intros G L E. destruct s as (ids, rest). destruct L as (L1 & L2). cbn [fst snd] in *. unfold evidence_fields, fields_Evidence in L2. cbn [tl] in L2.
  destruct rest as [|occ [|cs [|lics [|copy [|]]]]]; shape L2; try tauto. destruct L2 as (O & C & Li & Co & _).
  assert (Old : evidence_ok (ids, [occ; cs; lics; copy])) by (split; [exact L1|repeat split; assumption]).
  destruct k as [s|sp local a ks dec]; cbn [dec_evidence] in E; [injection E as <-; exact Old|]. destruct G as (G & Gk).
  destruct (String.eqb local "identity"); [|destruct (String.eqb local "occurrences"); [|destruct (String.eqb local "callstack"); [|destruct (String.eqb local "licenses"); [|destruct (String.eqb local "copyright"); [|discriminate]]]]];
    apply bind_ok in E as (r & E & E').
  - apply fresh_good in E; [|exact G|reflexivity]. injection E' as <-. split; [apply all_snoc; assumption|]. repeat split; assumption.
  - apply raw_good in E; [|reflexivity|exact Gk]. unfold fields_EvidenceUnmarshalXML in E. destruct r as [|x [|y [|]]]; shape E; try tauto. injection E' as <-.
    split; [exact L1|]. split; [destruct (nonnil x); [apply E|exact O]|]. repeat split; assumption.
  - apply fresh_good in E; [|exact G|reflexivity]. injection E' as <-. split; [exact L1|]. split; [exact O|]. split; [destruct (existsb _ _); [exact E|exact C]|]. repeat split; assumption.
  - apply fresh_good in E; [|exact G|reflexivity]. injection E' as <-. split; [exact L1|]. split; [exact O|]. split; [exact C|]. split; [destruct (list_of_slice r); [exact Li|exact E]|]. repeat split; assumption.
  - apply raw_good in E; [|reflexivity|exact Gk]. unfold fields_EvidenceUnmarshalXML in E. destruct r as [|x [|y [|]]]; shape E; try tauto. injection E' as <-.
    split; [exact L1|]. split; [exact O|]. split; [exact C|]. split; [exact Li|]. split; [destruct (nonnil y); [apply E|exact Co]|exact I].
Qed.

Lemma kid_induction (P : kid -> Prop) : (forall s, P (KText s)) -> (forall sp l a ks d, Forall P ks -> P (KElem sp l a ks d)) -> forall k, P k.
Proof.
  intros Ht He. fix IH 1. intros [s|sp l a ks d]; [apply Ht|]. apply He. induction ks as [|k ks IHk]; constructor; [apply IH|exact IHk].
Qed.
Definition state_of {S} (r : entered S) : S := match r with Decoded s => s | Entered s => s end.
Lemma walk_good {S} (enter : kid -> S -> result xerr (entered S)) leave (P : S -> Prop) :
  (forall k s r, good_kid k -> P s -> enter k s = Ok r -> P (state_of r)) -> (forall l s s', P s -> leave l s = Ok s' -> P s') ->
  forall k, good_kid k -> forall s s', P s -> walk enter leave k s = Ok s' -> P s'.
Proof.
  intros He Hl. induction k as [s0|sp l a ks d IH] using kid_induction; intros G s s' Ps E; [cbn in E; injection E as <-; exact Ps|].
  rewrite walk_elem in E. apply bind_ok in E as (r & E1 & E). pose proof (He _ _ _ G Ps E1) as Pr. destruct r as [s1|s1]; cbn [state_of] in Pr; [injection E as <-; exact Pr|].
  apply bind_ok in E as (s2 & E2 & E). apply (Hl _ _ _) in E; [exact E|]. destruct G as (_ & G). clear - IH G Pr E2.
  revert s1 Pr E2. induction ks as [|k ks IHk]; intros s1 Pr E; cbn [each_kid] in E; [injection E as <-; exact Pr|].
  apply Forall_cons_iff in IH as (I1 & I2). destruct G as (G1 & G2). destruct k as [s|sp l a inner d]; [exact (IHk I2 G2 _ Pr E)|].
  apply bind_ok in E as (s3 & E3 & E). exact (IHk I2 G2 _ (I1 G1 _ _ Pr E3) E).
Qed.
Lemma walk_all_good {S} (enter : kid -> S -> result xerr (entered S)) leave (P : S -> Prop) :
  (forall k s r, good_kid k -> P s -> enter k s = Ok r -> P (state_of r)) -> (forall l s s', P s -> leave l s = Ok s' -> P s') ->
  forall ks, list_all good_kid ks -> forall s s', P s -> walk_all enter leave ks s = Ok s' -> P s'.
Proof. intros He Hl ks G s s' Ps E. rewrite walk_all_each in E. eapply (each_good (walk enter leave) P); [|exact G|exact Ps|exact E]. intros k u u' Gk Pu. apply (walk_good enter leave P He Hl k Gk u u' Pu). Qed.

Definition data_ok (s : data_state) : Prop :=
  match s with
  | DOuter vs | DDone vs => zipd vs fields_DataClassification
  | DUrls _ urls vs => list_all (decent TStr) urls /\ zipd vs fields_DataClassification
  end.
Lemma last_attr_good n attrs : forall old, decent TStr old -> decent TStr (last_attr n attrs old).
Proof. induction attrs as [|[m s] attrs IH]; intros old O; [exact O|]. cbn [last_attr]. apply IH. destruct (String.eqb m n); [reflexivity|exact O]. Qed.
Lemma data_enter_good k s r : good_kid k -> data_ok s -> data_enter k s = Ok r -> data_ok (state_of r).
Proof.
  intros G D E. destruct k as [t|sp local a ks dec]; [destruct s as [[|? [|? [|? [|? [|? [|? [|? [|]]]]]]]]| |]; discriminate|]. destruct G as (G & _).
  destruct s as [vs|src urls vs|vs]; [| |discriminate].
  - unfold data_ok, fields_DataClassification in D. destruct vs as [|flow [|cl [|name [|desc [|gov [|source [|dest [|]]]]]]]]; try discriminate E. shape D. destruct D as (D1 & D2 & D3 & D4 & D5 & D6 & D7 & _).
    cbn [data_enter] in E.
    destruct (String.eqb local "classification"); [|destruct (String.eqb local "governance"); [|destruct (String.eqb local "source"); [|destruct (String.eqb local "destination")]]].
    + apply bind_ok in E as (v & E & [= <-]). apply fresh_good in E; [|exact G|reflexivity]. cbn [state_of data_ok]. split; [apply last_attr_good, D1|]. repeat split; assumption.
    + apply bind_ok in E as (v & E & [= <-]). apply fresh_good in E; [|exact G|reflexivity]. cbn [state_of data_ok]. repeat split; assumption.
    + injection E as <-. repeat split; assumption.
    + injection E as <-. repeat split; assumption.
    + injection E as <-. repeat split; assumption.
  - cbn [data_enter] in E. destruct D as (U & D). destruct (String.eqb local "url"); [|injection E as <-; split; assumption].
    apply bind_ok in E as (v & E & [= <-]). apply fresh_good in E; [|exact G|reflexivity]. split; [apply all_snoc; assumption|exact D].
Qed.
Lemma data_leave_good l s s' : data_ok s -> data_leave l s = Ok s' -> data_ok s'.
Proof.
  intros D E. destruct s as [vs|[|] urls vs|vs]; cbn [data_leave] in E; [| | |discriminate]; injection E as <-.
  - destruct (String.eqb l "dataflow"); exact D.
  - destruct (String.eqb l "source"); [|exact D]. destruct D as (U & D). destruct urls as [|u urls]; [exact D|].
    exact (zip_set (fun f x => decent (f_ty f) x) vs fields_DataClassification 5 _ _ D eq_refl (decent_ptr_if TStr (u :: urls) U)).
  - destruct (String.eqb l "destination"); [|exact D]. destruct D as (U & D). destruct urls as [|u urls]; [exact D|].
    exact (zip_set (fun f x => decent (f_ty f) x) vs fields_DataClassification 6 _ _ D eq_refl (decent_ptr_if TStr (u :: urls) U)).
Qed.
Definition defs_ok2 (a b : val) : Prop := decent (TPtr (TSlice (TRef "StandardDefinition"))) a /\ decent (TPtr (TSlice (TRef "PatentChoice"))) b.
Definition defs_state_ok (s : defs_state) : Prop :=
  match s with
  | FOuter a b | FDone a b => defs_ok2 a b
  | FStandards l a b => list_all (decent (TRef "StandardDefinition")) l /\ defs_ok2 a b
  | FPatents l a b => list_all (decent (TRef "PatentChoice")) l /\ defs_ok2 a b
  end.
Lemma defs_enter_good k s r : good_kid k -> defs_state_ok s -> defs_enter k s = Ok r -> defs_state_ok (state_of r).
Proof.
  intros G D E. destruct k as [t|sp local a ks dec]; [destruct s; discriminate|]. destruct G as (G & _).
  destruct s as [x y|l x y|l x y|x y]; cbn [defs_enter] in E; [| | |discriminate].
  - destruct (String.eqb local "standards"); [|destruct (String.eqb local "patents")]; injection E as <-; [split; [exact I|exact D]|split; [exact I|exact D]|exact D].
  - destruct (String.eqb local "standard"); [|injection E as <-; exact D]. apply bind_ok in E as (v & E & [= <-]). apply fresh_good in E; [|exact G|reflexivity].
    destruct D as (L & D). split; [apply all_snoc; assumption|exact D].
  - destruct D as (L & D). destruct (String.eqb local "patent"); [|destruct (String.eqb local "patentFamily"); [|injection E as <-; split; assumption]];
      apply bind_ok in E as (v & E & [= <-]); (apply fresh_good in E; [|exact G|reflexivity]); (split; [apply all_snoc; [exact L|]|exact D]).
    + apply (decent_struct _ fields_PatentChoice); [reflexivity|split; [exact E|split; exact I]|right; reflexivity].
    + apply (decent_struct _ fields_PatentChoice); [reflexivity|split; [exact I|split; [exact E|exact I]]|left; reflexivity].
Qed.
Lemma defs_leave_good l s s' : defs_state_ok s -> defs_leave l s = Ok s' -> defs_state_ok s'.
Proof.
  intros D E. destruct s as [x y|m x y|m x y|x y]; cbn [defs_leave] in E; [| | |discriminate]; injection E as <-.
  - exact D.
  - destruct D as (L & D1 & D2). destruct m; [split; assumption|]. split; [apply decent_ptr_if, L|exact D2].
  - destruct D as (L & D1 & D2). destruct m; [split; assumption|]. split; [exact D1|apply decent_ptr_if, L].
Qed.
Lemma struct_cur t fs cur : kind_of t = KStruct fs -> decent t cur -> exists vs, cur = VStruct vs /\ zipd vs fs /\ checked t vs.
Proof. intros K D. destruct cur as [| | | |[]|[]|vs]; cbn [decent] in D; rewrite K in D; try discriminate; try contradiction. exists vs. split; [reflexivity|exact D]. Qed.
Lemma ikev2_good n fs sp l a ks cur v : kind_of (TRef n) = KStruct fs -> forallb ok_field (xfield "Content" TStr ",chardata" :: tl fs) = true ->
  hd_error (map f_ty fs) = Some (TRef "BOMReference") -> one_alternative n = (fun _ => True) ->
  list_all good_kid ks -> decent (TRef n) cur -> unmarshal MIKEv2 (TRef n) sp l a ks cur = Ok v -> decent (TRef n) v.
Proof.
  intros K F H O G D E. destruct (struct_cur _ _ _ K D) as (vs & -> & Z & _). destruct fs as [|f fs]; [discriminate|]. injection H as H. destruct vs as [|ref rest]; [contradiction|]. destruct Z as (Z1 & Z2).
  cbn [unmarshal] in E. unfold fields_of in E. rewrite K in E. cbn [tl] in *. apply bind_ok in E as (r & E & E'). apply raw_good in E; [|exact F|exact G].
  destruct r as [|content r]; [contradiction|]. destruct E as (E1 & E2).
  destruct (negb (String.eqb (trim_space (str_of content)) "") && forallb zero_value r)%bool; injection E' as <-; (apply (decent_struct _ (f :: fs)); [exact K| |rewrite O; exact I]).
  - split; [|exact Z2]. rewrite H. reflexivity.
  - split; [exact Z1|exact E2].
Qed.
Lemma unmarshal_good n m sp l a ks cur v : In (n, m) xml_methods -> m <> MLicense -> list_all good_kid ks -> start (TRef n) cur -> unmarshal m (TRef n) sp l a ks cur = Ok v -> decent (TRef n) v.
Proof.
  intros I Nl G (D & S) E. unfold xml_methods in I. cbn [In] in I.
  repeat (destruct I as [I|I]; [injection I as <- <-|]); [..|destruct I].
  all: try (exfalso; apply Nl; reflexivity).
  all: try (eapply ikev2_good; [reflexivity|vm_compute; reflexivity|reflexivity|reflexivity|exact G|exact D|exact E]).
  all: clear Nl.
  - (* BOMReference *) cbn [unmarshal] in E. apply bind_ok in E as (r & E & E'). apply raw_good in E; [|reflexivity|exact G]. unfold fields_bomReferenceXML in E. destruct r as [|x [|]]; try discriminate E'. shape E. injection E' as <-.
    destruct E as (E & _). destruct x as [| | | |[]|[]|]; cbn in E; try discriminate; try contradiction. reflexivity.
  - (* Copyright *) injection E as <-. apply (decent_struct _ fields_Copyright); [reflexivity|split; [reflexivity|exact Logic.I]|exact Logic.I].
  - (* Dependency *) cbn [unmarshal] in E. apply bind_ok in E as (r & E & E'). apply raw_good in E; [|vm_compute; reflexivity|exact G]. unfold fields_dependencyXML in E. destruct r as [|ref [|deps [|provides [|]]]]; try discriminate E'.
    shape E. destruct E as (E1 & E2 & E3 & _). injection E' as <-.
    assert (Q : forall p, decent (TPtr (TSlice (TRef "dependencyXML"))) p ->
      list_all (decent TStr) (map (fun d => hd (VStr "") (fields_of_val d)) (match p with VPtr (Some l) => list_of_slice l | _ => [] end))).
    { intros p P. destruct p as [| | | |[x|]|[]|]; try exact Logic.I. destruct x as [| | | |[]|[m|]|]; cbn in P; try discriminate; try contradiction; try exact Logic.I.
      apply list_all_forall, Forall_map, Forall_forall. intros d Id. apply list_all_forall in P. rewrite Forall_forall in P. specialize (P _ Id).
      destruct d as [| | | |[]|[]|vs]; cbn [decent] in P; try discriminate; try contradiction; try reflexivity. change (kind_of (TRef "dependencyXML")) with (KStruct fields_dependencyXML) in P. destruct P as (P & _).
      destruct vs; [contradiction|]. exact (proj1 P). }
    apply (decent_struct _ fields_Dependency); [reflexivity| |exact Logic.I]. split; [exact E1|]. split; [apply decent_ptr_if, Q, E2|]. split; [apply decent_ptr_if, Q, E3|exact Logic.I].
  - (* EnvironmentVariables *) cbn [unmarshal] in E. apply bind_ok in E as (r & E & [= <-]). apply (each_good _ (list_all (decent (TRef "EnvironmentVariableChoice"))) ks environment_good G) in E; [exact E|exact Logic.I].
  - (* Licenses *) cbn [unmarshal] in E. apply bind_ok in E as (r & E & [= <-]). apply (each_good _ (list_all (decent (TRef "LicenseChoice"))) ks choice_good G) in E; [exact E|exact Logic.I].
  - (* MLDatasetChoice *) rewrite (S eq_refl) in E. change (zero_of (TRef "MLDatasetChoice")) with (VStruct [VStr ""; VPtr None]) in E. cbn [unmarshal] in E.
    apply bind_ok in E as (r & E & E'). apply raw_good in E; [|vm_compute; reflexivity|exact G]. destruct r as [|x d]; [discriminate|]. destruct E as (E1 & E2). destruct (nonempty x).
    + injection E' as <-. apply (decent_struct _ fields_MLDatasetChoice); [reflexivity| |right; reflexivity]. split; [exact E1|split; exact Logic.I].
    + injection E' as <-. apply (decent_struct _ fields_MLDatasetChoice); [reflexivity| |left; reflexivity]. split; [reflexivity|]. split; [|exact Logic.I].
      destruct (forallb zero_value d); [exact Logic.I|]. apply decent_some. apply (decent_struct _ fields_ComponentData); [reflexivity|exact E2|exact Logic.I].
  - (* SpecVersion *) cbn [unmarshal] in E. match type of E with match ?p with _ => _ end = _ => destruct p end; [|discriminate]. injection E as <-. reflexivity.
  - (* CertificateState *) rewrite (S eq_refl) in E. change (zero_of (TRef "CertificateState")) with (VStruct [VPtr None; VPtr None]) in E. cbn [unmarshal] in E.
    apply bind_ok in E as (r & E & E'). apply raw_good in E; [|vm_compute; reflexivity|exact G]. destruct r as [|x [|y [|z [|w [|]]]]]; try discriminate E'. unfold xfield in E. shape E. destruct E as (E1 & E2 & E3 & E4 & _).
    destruct (nonempty x); injection E' as <-; (apply (decent_struct _ fields_CertificateState); [reflexivity| |]).
    + split; [|split; exact Logic.I]. apply decent_some. eapply decent_struct; [reflexivity| |exact Logic.I]. repeat split; assumption.
    + right. reflexivity.
    + split; [exact Logic.I|]. split; [|exact Logic.I]. apply decent_some. eapply decent_struct; [reflexivity| |exact Logic.I]. repeat split; assumption.
    + left. reflexivity.
  - (* CertificateExtension *) rewrite (S eq_refl) in E. change (zero_of (TRef "CertificateExtension")) with (VStruct [VPtr None; VPtr None]) in E. cbn [unmarshal] in E.
    apply bind_ok in E as (r & E & E'). apply raw_good in E; [|vm_compute; reflexivity|exact G]. destruct r as [|x [|y [|z [|w [|]]]]]; try discriminate E'. unfold xfield in E. shape E. destruct E as (E1 & E2 & E3 & E4 & _).
    destruct (nonempty x); injection E' as <-; (apply (decent_struct _ fields_CertificateExtension); [reflexivity| |]).
    + split; [|split; exact Logic.I]. apply decent_some. eapply decent_struct; [reflexivity| |exact Logic.I]. repeat split; assumption.
    + right. reflexivity.
    + split; [exact Logic.I|]. split; [|exact Logic.I]. apply decent_some. eapply decent_struct; [reflexivity| |exact Logic.I]. repeat split; assumption.
    + left. reflexivity.
  - (* AsserterChoice *) cbn [unmarshal] in E. apply bind_ok in E as (r & E & [= <-]). apply raw_good in E; [|vm_compute; reflexivity|exact G]. destruct r as [|x [|y [|z [|]]]]; unfold xfield in E; shape E; try tauto.
    destruct E as (E1 & E2 & E3 & _). apply (decent_struct _ fields_AsserterChoice); [reflexivity| |exact Logic.I]. repeat split; assumption.
  - (* ToolsChoice *) cbn [unmarshal] in E. apply bind_ok in E as (s & E & E'). apply (each_good _ tools_ok ks tools_good G) in E; [|repeat split]. destruct s as ((tools, comps), servs). destruct E as (E1 & E2 & E3).
    cbv zeta in E'.
    assert (Q : forall t v, decent (TSlice t) v -> decent (TPtr (TSlice t)) (if match list_of_slice v with [] => false | _ => true end then some_ptr v else VPtr None)).
    { intros t u U. destruct (list_of_slice u); [exact Logic.I|exact U]. }
    destruct tools as [|x tools]; cbn [list_of_slice andb orb] in E'.
    + destruct ((match list_of_slice comps with [] => false | _ => true end || match list_of_slice servs with [] => false | _ => true end)%bool) eqn:B; injection E' as <-; [|exact D].
      apply (decent_struct _ fields_ToolsChoice); [reflexivity| |left; reflexivity]. split; [exact Logic.I|]. split; [apply Q, E2|]. split; [apply Q, E3|exact Logic.I].
    + destruct (list_of_slice comps); [|discriminate]. destruct (list_of_slice servs); [|discriminate]. injection E' as <-.
      apply (decent_struct _ fields_ToolsChoice); [reflexivity| |right; split; reflexivity]. split; [exact E1|]. repeat split.
  - (* Evidence *) cbn [unmarshal] in E. apply bind_ok in E as (s & E & E'). apply (each_good _ evidence_ok ks evidence_good G) in E; [|repeat split]. destruct s as (ids, rest). destruct E as (E1 & E2). cbn [fst snd] in *. injection E' as <-.
    apply (decent_struct _ fields_Evidence); [reflexivity| |exact Logic.I]. split; [|exact E2]. destruct ids as [|i ids]; [exact Logic.I|].
    apply decent_some, (decent_struct _ fields_EvidenceIdentityChoice); [reflexivity| |left; reflexivity]. split; [exact Logic.I|]. split; [exact E1|exact Logic.I].
  - (* DataClassification *) destruct (struct_cur (TRef "DataClassification") fields_DataClassification _ eq_refl D) as (vs & -> & Z & _). unfold fields_DataClassification in Z. destruct vs as [|flow [|cl [|name [|desc [|gov [|source [|dest [|]]]]]]]]; shape Z; try tauto.
    destruct Z as (D1 & D2 & D3 & D4 & D5 & D6 & D7 & _). cbn [unmarshal] in E. apply bind_ok in E as (s & E & E').
    apply (walk_all_good _ _ data_ok data_enter_good data_leave_good _ G) in E.
    + apply bind_ok in E' as (s' & E2 & E'). apply data_leave_good in E2; [|exact E]. destruct s' as [w|? ? ?|w]; try discriminate. injection E' as <-. apply (decent_struct _ fields_DataClassification); [reflexivity|exact E2|exact Logic.I].
    + cbn [data_ok]. split; [exact D1|]. split; [exact D2|]. split; [apply last_attr_good, D3|]. split; [apply last_attr_good, D4|]. repeat split; assumption.
  - (* Definitions *) destruct (struct_cur (TRef "Definitions") fields_Definitions _ eq_refl D) as (vs & -> & Z & _). unfold fields_Definitions in Z. destruct vs as [|x [|y [|]]]; shape Z; try tauto.
    destruct Z as (D1 & D2 & _). cbn [unmarshal] in E. apply bind_ok in E as (s & E & E').
    apply (walk_all_good _ _ defs_state_ok defs_enter_good defs_leave_good _ G) in E; [|split; assumption].
    apply bind_ok in E' as (s' & E2 & E'). apply defs_leave_good in E2; [|exact E].
    assert (Q : exists p q, v = VStruct [p; q] /\ defs_ok2 p q) by (destruct s' as [p q|? p q|? p q|p q]; injection E' as <-; exists p, q; (split; [reflexivity|]); cbn in E2; tauto).
    destruct Q as (p & q & -> & Q1 & Q2). apply (decent_struct _ fields_Definitions); [reflexivity| |exact Logic.I]. split; [exact Q1|split; [exact Q2|exact Logic.I]].
Qed.

Lemma plain_names n : existsb (String.eqb n) ["EvidenceIdentityChoice"; "PatentChoice"; "EnvironmentVariableChoice"; "LicenseChoice"] = false -> marshaler (TRef n) = MNone -> one_alternative n = (fun _ => True).
Proof.
  unfold one_alternative. intros D U.
  destruct (String.eqb_spec n "ToolsChoice") as [->|_]; [discriminate U|].
  destruct (existsb (String.eqb n) ["EvidenceIdentityChoice"; "CertificateState"; "CertificateExtension"; "PatentChoice"]) eqn:B.
  - cbn [existsb] in B. repeat (apply Bool.orb_prop in B as [B|B]; [apply String.eqb_eq in B as ->; first [discriminate U|discriminate D]|]). discriminate.
  - clear B. destruct (String.eqb_spec n "MLDatasetChoice") as [->|_]; [discriminate U|]. destruct (String.eqb_spec n "EnvironmentVariableChoice") as [->|_]; [discriminate D|].
    destruct (String.eqb_spec n "LicenseChoice") as [->|_]; [discriminate D|reflexivity].
Qed.
Lemma value_good sp l a ks t depth cur v : list_all good_kid ks -> wk t = true -> decodable t = true -> start t cur -> dec_value sp l a ks t depth cur = Ok v -> decent t v.
Proof.
  intros G K Kd S E. unfold dec_value in E. destruct (unmarshaler t) eqn:U.
  all: try (exfalso; unfold unmarshaler in U; destruct (marshaler t); discriminate U).
  all: try (destruct t as [| | | | | | |n]; try discriminate U; unfold unmarshaler, marshaler in U; destruct (assoc n xml_methods) as [m|] eqn:A; [|discriminate U];
    apply assoc_methods in A; destruct m; try discriminate U; eapply unmarshal_good; [exact A|discriminate|exact G|exact S|exact E]).
  destruct (kind_of t) as [| | | | | |fs|] eqn:Kt; try (apply copy_good in E; exact E). apply bind_ok in E as (vs & E & [= <-]).
  destruct (struct_cur _ _ _ Kt (proj1 S)) as (cs & -> & Z & _). cbn [fields_of_val] in E.
  cbn [decent]. rewrite Kt. split; [eapply dec_struct_good; [exact (struct_ok _ _ Kt)|exact G|exact Z|exact E]|].
  destruct t as [| | | | | | |n]; try exact I. cbn [checked]. destruct (marshaler (TRef n)) eqn:M; unfold unmarshaler in U; rewrite M in U; try discriminate.
  - cbn [decodable] in Kd. rewrite Bool.negb_true_iff in Kd. rewrite (plain_names n Kd M). exact I.
  - unfold marshaler in M. destruct (assoc n xml_methods) as [m|] eqn:A; [|discriminate M]. subst m. apply assoc_methods in A. unfold xml_methods in A. cbn [In] in A.
    repeat (destruct A as [A|A]; [first [discriminate A|injection A as <-; exact I]|]). destruct A.
Qed.
Lemma slice_names : forallb (fun d => match snd d with DAlias (TSlice t') => (decodable t' || match unmarshaler (TRef (fst d)) with MNone => false | _ => true end)%bool | _ => true end) defs = true.
Proof. vm_compute. reflexivity. Qed.
Lemma slice_decodable t t' : decodable t = true -> kind_of t = KSlice t' -> unmarshaler t = MNone -> decodable t' = true.
Proof.
  intros D K U. destruct t as [| | | | | | |n]; try discriminate K; [injection K as <-; exact D|]. cbn [kind_of] in K. destruct (assoc n defs) as [[fs|u]|] eqn:A; try discriminate K.
  apply assoc_in in A. pose proof slice_names as H. rewrite forallb_forall in H. specialize (H _ A). cbn [fst snd] in H. destruct u; try discriminate K. injection K as <-. rewrite U in H. destruct (decodable u); [reflexivity|discriminate].
Qed.
Lemma slice_good {Lim : Limit} sp l a ks t depth cur v : list_all good_kid ks -> wk t = true -> decodable t = true -> start t cur -> dec_slice sp l a ks t depth cur = Ok v -> decent t v.
Proof.
  intros G K Kd S E. unfold dec_slice in E. destruct (unmarshaler t) eqn:U; try (eapply value_good; eassumption).
  destruct (kind_of t) as [| | | | |t'| |] eqn:Kt; try (eapply value_good; eassumption). destruct (limit <=? N.succ depth)%N; [discriminate|].
  apply bind_ok in E as (x & E & [= <-]).
  apply value_good in E; [|exact G|exact (wk_slice _ _ K Kt)|exact (slice_decodable _ _ Kd Kt U)|apply zero_start, (wk_slice _ _ K Kt)].
  cbn [decent]. rewrite Kt. apply all_snoc; [|exact E]. destruct S as (D & _). destruct cur as [| | | |[]|[m|]|]; cbn [decent] in D; rewrite Kt in D; try discriminate; try contradiction; [exact D|exact I].
Qed.
Lemma ptr_only t t' : wk t = true -> kind_of t = KPtr t' -> t = TPtr t'.
Proof.
  destruct t; cbn [wk kind_of kind_base]; try discriminate; [intros _ [= ->]; reflexivity|].
  destruct (assoc name defs) as [[fs|t]|]; try discriminate. destruct t; discriminate.
Qed.
Lemma elem_good {Lim : Limit} sp l a ks : list_all good_kid ks -> dec_good (dec_elem sp l a ks).
Proof.
  intros G t depth cur v K Kd S E. unfold dec_elem in E. destruct (limit <=? depth)%N; [discriminate|].
  destruct (kind_of t) as [| | | |t'| | |] eqn:Kt; try (eapply slice_good; eassumption). pose proof (ptr_only _ _ K Kt) as ->.
  apply bind_ok in E as (x & E & [= <-]). apply slice_good in E; [exact E|exact G|exact K|exact Kd|]. destruct S as (D & F). split.
  - destruct cur as [| | | |[y|]|[]|]; cbn [decent] in D; try discriminate; try contradiction; [exact D|apply zero_decent, wk_kind, K].
  - intros Fo. specialize (F Fo). subst cur. reflexivity.
Qed.
Lemma waiting_good {Lim : Limit} x : good_kid (waiting x).
Proof.
  induction x as [s|sp l a ks IH] using xml_induction; [exact I|]. cbn [waiting good_kid].
  assert (G : list_all good_kid (map waiting ks)) by (apply list_all_forall, Forall_map, IH). split; [apply elem_good, G|exact G].
Qed.
Theorem decoded_decent entries x c : bom_of_xml entries x zero_BOM = Ok c -> exists v, decent (TRef "BOM") v /\ c = set_BOM_SpecVersion (BOM_SpecVersion c) (reflect_BOM v).
Proof.
  intros E. unfold bom_of_xml, bom_within in E. apply bind_ok in E as (v & E & [= <-]). exists v. split; [|destruct (reflect_BOM v); reflexivity].
  pose proof (@waiting_good go_limit x) as G. unfold xdec in E. destruct (waiting x) as [s|sp l a ks dec]; [discriminate|]. destruct G as (G & _).
  eapply G; [reflexivity|reflexivity| |exact E]. split; [|discriminate]. rewrite bom_zero. apply zero_decent. discriminate.
Qed.
Lemma decent_version z b : decent (TRef "BOM") (reify_BOM b) -> decent (TRef "BOM") (reify_BOM (set_BOM_SpecVersion z b)).
Proof.
  intros D. destruct (struct_cur (TRef "BOM") fields_BOM _ eq_refl D) as (vs & Q & Z & _).
  assert (R : reify_BOM (set_BOM_SpecVersion z b) = VStruct (set_nth 4 (VInt z) vs)) by (destruct b; cbn in Q |- *; injection Q as <-; reflexivity).
  rewrite R. apply (decent_struct _ fields_BOM); [reflexivity| |exact I].
  exact (zip_set (fun f x => decent (f_ty f) x) vs fields_BOM 4 (VInt z) _ Z eq_refl eq_refl).
Qed.
Theorem decoded_bom entries x c : bom_of_xml entries x zero_BOM = Ok c -> decent (TRef "BOM") (reify_BOM c).
Proof.
  intros E. apply decoded_decent in E as (v & D & ->). apply decent_version. rewrite (vni_BOM v (decent_wt _ _ D)). exact D.
Qed.
