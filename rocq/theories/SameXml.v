(** Whether XML decoding succeeds does not depend on what the BOM holds: for C39. *)
From Verif Require Import Base Types Univ TypeTable Wt ReifyBase Reify ReifyFacts Consts Version ConvertSpec GobProofs JsonModel JsonProofs JsonDecode JsonBom SameOutcome XmlModel XmlTable XmlProofs XmlNeat.
From Coq Require Import Lia.
Local Open Scope string_scope.

(** What the UnmarshalXML methods count on *)
Definition xready (t : ty) : option (nat -> Prop) :=
  match unmarshaler t with
  | MNone => None
  | MDataset | MState | MExtension | MDefinitions => Some (eq 2)
  | MData => Some (eq 7)
  | MIKEv2 => Some (lt 0)
  | _ => Some (fun _ => True)
  end.
Lemma methods_in n m : assoc n xml_methods = Some m -> In (n, m) xml_methods.
Proof. exact (assoc_in n xml_methods m). Qed.
Lemma xready_ready t P fs : xready t = Some P -> kind_of t = KStruct fs -> P (length fs).
Proof.
  unfold xready, unmarshaler, marshaler. intros R K. destruct t as [| | | | | | |n]; try discriminate R. destruct (assoc n xml_methods) as [m|] eqn:A; [|discriminate R].
  apply methods_in in A. unfold xml_methods in A. cbn [In] in A.
  repeat (destruct A as [A|A]; [injection A as <- <-; cbn [kind_of assoc] in K; vm_compute in K; first [discriminate K|injection K as <-; first [discriminate R|injection R as <-; vm_compute; first [reflexivity|exact I|lia]]]|]).
  destruct A.
Qed.
Definition xsized : ty -> val -> Prop := sized xready false.
Definition xsizes (vs : list val) (fs : list field) : Prop := zip_all (fun f x => xsized (f_ty f) x) vs fs.
Definition out_same {A} (P : A -> Prop) (r1 r2 : result xerr A) : Prop :=
  match r1, r2 with
  | Ok v1, Ok v2 => P v1 /\ P v2
  | Err e1, Err e2 => e1 = e2
  | _, _ => False
  end.
Definition xsame (d : xdecoder) : Prop := forall t n c1 c2, wk t = true -> xsized t c1 -> xsized t c2 -> out_same (xsized t) (d t n c1) (d t n c2).
Fixpoint same_kid (k : kid) : Prop := match k with KText _ => True | KElem _ _ _ ks d => xsame d /\ list_all same_kid ks end.
Lemma bind_same {A B} (P : A -> Prop) (Q : B -> Prop) r1 r2 (f1 f2 : A -> result xerr B) :
  out_same P r1 r2 -> (forall a1 a2, P a1 -> P a2 -> out_same Q (f1 a1) (f2 a2)) -> out_same Q (bind r1 f1) (bind r2 f2).
Proof. destruct r1, r2; cbn [out_same bind]; try contradiction; [intros (H1 & H2) F; apply F; assumption|trivial]. Qed.

Definition wks (fs : list field) : Prop := Forall (fun f => wk (f_ty f) = true) fs.
Lemma at_same fs i d n c1 c2 : wks fs -> xsame d -> xsizes c1 fs -> xsizes c2 fs -> out_same (fun c => xsizes c fs) (dec_at fs i d n c1) (dec_at fs i d n c2).
Proof.
  intros W D S1 S2. unfold dec_at. destruct (nth_error fs i) as [f|] eqn:Nf; [|reflexivity].
  destruct (zip_some _ _ _ _ _ S1 Nf) as (x1 & N1 & X1). destruct (zip_some _ _ _ _ _ S2 Nf) as (x2 & N2 & X2). rewrite N1, N2.
  assert (Wf : wk (f_ty f) = true) by (unfold wks in W; rewrite Forall_forall in W; apply W; eapply nth_error_In, Nf).
  eapply bind_same; [apply D; [exact Wf|exact X1|exact X2]|]. intros v1 v2 V1 V2. cbn [out_same]. split; eapply zip_set; eassumption.
Qed.
Lemma inside_same fs p n : wks fs -> forall ks c1 c2, list_all same_kid ks -> xsizes c1 fs -> xsizes c2 fs ->
  out_same (fun c => xsizes c fs) (dec_inside fs p n ks c1) (dec_inside fs p n ks c2).
Proof.
  intros W. induction ks as [|[s|sp l a ks d] ks' IH]; intros c1 c2 G S1 S2; cbn [dec_inside]; [split; assumption|apply IH; [exact (proj2 G)|exact S1|exact S2]|].
  destruct G as ((D & _) & G). eapply bind_same; [|intros v1 v2 V1 V2; apply IH; [exact G|exact V1|exact V2]].
  destruct (find_place (Some p) l 0 fs) as [[i|q]|]; [apply at_same; assumption|split; assumption|split; assumption].
Qed.
Lemma kids_same fs n : wks fs -> forall ks c1 c2, list_all same_kid ks -> xsizes c1 fs -> xsizes c2 fs ->
  out_same (fun c => xsizes c fs) (dec_kids fs n ks c1) (dec_kids fs n ks c2).
Proof.
  intros W. induction ks as [|[s|sp l a ks d] ks' IH]; intros c1 c2 G S1 S2; cbn [dec_kids]; [split; assumption|apply IH; [exact (proj2 G)|exact S1|exact S2]|].
  destruct G as ((D & Gk) & G). eapply bind_same; [|intros v1 v2 V1 V2; apply IH; [exact G|exact V1|exact V2]].
  destruct (find_place None l 0 fs) as [[i|q]|]; [apply at_same; assumption|apply inside_same; assumption|split; assumption].
Qed.
(** Attributes and character data never go to structs, and fields named XMLName are names. *)
Definition flat_field (f : field) : bool :=
  (match xml_info f with
   | Some (mkX XCharData _ _ _) => match kind_of (f_ty f) with KStruct _ => false | _ => true end
   | _ => true
   end && (negb (String.eqb (f_name f) "XMLName") || match f_ty f with TRef "xml.Name" => true | _ => false end))%bool.
Lemma defs_flat : forallb (fun d => match snd d with DStruct fs => forallb flat_field fs | _ => true end) defs = true.
Proof. vm_compute. reflexivity. Qed.
Lemma struct_flat t fs : kind_of t = KStruct fs -> Forall (fun f => flat_field f = true) fs.
Proof.
  intros K. apply kind_struct_in in K as (n & _ & I). pose proof defs_flat as D. rewrite forallb_forall in D. specialize (D _ I). cbn in D.
  rewrite forallb_forall in D. rewrite Forall_forall. exact D.
Qed.
Lemma copy_sized t s v : copy_value t s = Ok v -> xsized t v.
Proof.
  unfold copy_value, xsized. intros E. apply scalar_sized; intros u K; rewrite K in E; discriminate E.
Qed.
Lemma attr_sized t s v : dec_attr t s = Ok v -> xsized t v.
Proof.
  unfold dec_attr. destruct (kind_of t) as [| | | |t'| | |] eqn:K; try apply copy_sized. intros E. apply bind_ok in E as (x & E & [= <-]).
  unfold xsized, some_ptr. cbn [sized]. rewrite K. apply copy_sized in E. exact E.
Qed.
Lemma set_attr_same fs n s : forall c1 c2, xsizes c1 fs -> xsizes c2 fs -> out_same (fun c => xsizes c fs) (set_attr fs n s c1) (set_attr fs n s c2).
Proof.
  induction fs as [|f fs IH]; intros [|x1 c1] [|x2 c2] S1 S2; try contradiction; [split; exact I|]. cbn [set_attr]. destruct S1 as (X1 & S1), S2 as (X2 & S2).
  eapply (bind_same (xsized (f_ty f))).
  - assert (H : forall r : result xerr val, (forall v, r = Ok v -> xsized (f_ty f) v) -> out_same (xsized (f_ty f)) r r) by (intros [v|e] H; cbn [out_same]; auto).
    destruct (xml_info f) as [[m ps q o]|]; [|split; assumption]. destruct m; try (split; assumption). destruct (String.eqb q n); [|split; assumption].
    apply H. intros v E. eapply attr_sized, E.
  - intros v1 v2 V1 V2. eapply bind_same; [apply IH; assumption|]. intros l1 l2 L1 L2. split; (split; assumption).
Qed.
Lemma set_attrs_same fs a : forall c1 c2, xsizes c1 fs -> xsizes c2 fs -> out_same (fun c => xsizes c fs) (set_attrs fs a c1) (set_attrs fs a c2).
Proof.
  induction a as [|[n s] a IH]; intros c1 c2 S1 S2; cbn [set_attrs]; [split; assumption|]. eapply bind_same; [apply set_attr_same; assumption|]. intros l1 l2; apply IH.
Qed.
Lemma set_name_sized fs sp l : Forall (fun f => flat_field f = true) fs -> forall c, xsizes c fs -> xsizes (set_name fs sp l c) fs.
Proof.
  induction 1 as [|f fs F _ IH]; intros [|x c] S; try contradiction; [exact I|]. cbn [set_name]. destruct S as (X & S). split; [|apply IH, S].
  destruct (String.eqb (f_name f) "XMLName") eqn:Q; [|exact X]. unfold flat_field in F. rewrite Q in F. apply andb_prop in F as (_ & F). cbn [negb orb] in F.
  assert (T : f_ty f = TRef "xml.Name").
  { destruct (f_ty f) as [| | | | | | |n]; try discriminate F. destruct (String.eqb_spec n "xml.Name") as [->|N]; [reflexivity|]. exfalso.
    repeat match type of F with context [match ?x with _ => _ end] => is_var x; destruct x; try discriminate F end. apply N; reflexivity. }
  rewrite T. split; [exact I|split; exact I].
Qed.
Lemma set_chardata_sized fs s : Forall (fun f => flat_field f = true) fs -> forall c, xsizes c fs -> xsizes (set_chardata fs s c) fs.
Proof.
  induction 1 as [|f fs F _ IH]; intros [|x c] S; try contradiction; [exact I|]. cbn [set_chardata]. destruct S as (X & S). split; [|apply IH, S].
  unfold flat_field in F. destruct (xml_info f) as [[m ps q o]|]; [|exact X]. destruct m; try exact X. apply andb_prop in F as (F & _).
  unfold xsized. cbn [sized]. destruct (kind_of (f_ty f)); try exact I. discriminate F.
Qed.
Lemma dec_struct_same fs sp l a ks n c1 c2 : wks fs -> Forall (fun f => flat_field f = true) fs -> list_all same_kid ks -> xsizes c1 fs -> xsizes c2 fs ->
  out_same (fun c => xsizes c fs) (dec_struct fs sp l a ks n c1) (dec_struct fs sp l a ks n c2).
Proof.
  intros W F G S1 S2. unfold dec_struct. destruct (match xml_name fs with Some m => negb (String.eqb m l) | None => false end); [reflexivity|].
  eapply bind_same; [apply set_attrs_same; apply set_name_sized; assumption|]. intros v1 v2 V1 V2. eapply bind_same; [apply kids_same; assumption|].
  intros w1 w2 W1 W2. split; apply set_chardata_sized; assumption.
Qed.

(** ** The UnmarshalXML methods *)
Lemma refl_same {A} (P : A -> Prop) r : (forall v, r = Ok v -> P v) -> out_same P r r.
Proof. destruct r as [v|e]; cbn [out_same]; auto. Qed.
Section Walk.
  Context {S : Type} (R : S -> S -> Prop) (enter : kid -> S -> result xerr (entered S)) (leave : string -> S -> result xerr S).
  Definition related (r1 r2 : result xerr S) : Prop := match r1, r2 with Ok s1, Ok s2 => R s1 s2 | Err e1, Err e2 => e1 = e2 | _, _ => False end.
  Hypothesis He : forall k s1 s2, R s1 s2 -> match enter k s1, enter k s2 with
    | Ok (Decoded t1), Ok (Decoded t2) | Ok (Entered t1), Ok (Entered t2) => R t1 t2
    | Err e1, Err e2 => e1 = e2
    | _, _ => False
    end.
  Hypothesis Hl : forall l s1 s2, R s1 s2 -> related (leave l s1) (leave l s2).
  Lemma bind_related r1 r2 f : related r1 r2 -> (forall s1 s2, R s1 s2 -> related (f s1) (f s2)) -> related (bind r1 f) (bind r2 f).
  Proof. destruct r1, r2; cbn [related bind]; try contradiction; auto. Qed.
  Fixpoint walk_related (k : kid) : forall s1 s2, R s1 s2 -> related (walk enter leave k s1) (walk enter leave k s2).
  Proof.
    destruct k as [s|sp l a ks d]; intros s1 s2 H; cbn [walk]; [exact H|]. pose proof (He (KElem sp l a ks d) s1 s2 H) as E.
    destruct (enter (KElem sp l a ks d) s1) as [[t1|t1]|e1], (enter (KElem sp l a ks d) s2) as [[t2|t2]|e2]; cbn [bind]; try contradiction; try exact E.
    apply bind_related; [|intros; apply Hl; assumption]. clear H. revert t1 t2 E. induction ks as [|k ks IH]; intros t1 t2 E; [exact E|].
    apply bind_related; [apply walk_related, E|]. intros u1 u2 U. apply IH, U.
  Qed.
  Lemma walk_all_related ks : forall s1 s2, R s1 s2 -> related (walk_all enter leave ks s1) (walk_all enter leave ks s2).
  Proof. induction ks as [|k ks IH]; intros s1 s2 H; cbn [walk_all]; [exact H|]. apply bind_related; [apply walk_related, H|exact IH]. Qed.
End Walk.
Definition seven (vs : list val) : Prop := length vs = 7.
Definition data_same (s1 s2 : data_state) : Prop :=
  match s1, s2 with
  | DOuter v1, DOuter v2 | DDone v1, DDone v2 => seven v1 /\ seven v2
  | DUrls a1 u1 v1, DUrls a2 u2 v2 => a1 = a2 /\ u1 = u2 /\ seven v1 /\ seven v2
  | _, _ => False
  end.
Definition definitions_same (s1 s2 : defs_state) : Prop :=
  match s1, s2 with
  | FOuter _ _, FOuter _ _ | FDone _ _, FDone _ _ => True
  | FStandards l1 _ _, FStandards l2 _ _ | FPatents l1 _ _, FPatents l2 _ _ => l1 = l2
  | _, _ => False
  end.
Ltac seven vs := repeat (destruct vs as [|? vs]; try discriminate).
Lemma data_walk ks s1 s2 : data_same s1 s2 -> related data_same (walk_all data_enter data_leave ks s1) (walk_all data_enter data_leave ks s2).
Proof.
  apply walk_all_related; clear.
  - intros k [v1|a1 u1 v1|v1] [v2|a2 u2 v2|v2] H; try contradiction.
    + destruct H as (H1 & H2). unfold seven in H1, H2. seven v1. seven v2. destruct k as [s|sp l a ks d]; [reflexivity|]. cbn [data_enter].
      repeat match goal with |- context [String.eqb l ?x] => destruct (String.eqb l x) end; try (repeat split; reflexivity); unfold bind.
      all: match goal with |- context [decode_fresh ?x ?y] => destruct (decode_fresh x y) end; repeat split; reflexivity.
    + destruct H as (-> & -> & H1 & H2). destruct k as [s|sp l a ks d]; [reflexivity|]. cbn [data_enter]. destruct (String.eqb l "url"); [|repeat split; assumption].
      unfold bind. destruct (decode_fresh d TStr); repeat split; assumption.
    + destruct k; reflexivity.
  - intros l [v1|a1 u1 v1|v1] [v2|a2 u2 v2|v2] H; try contradiction; cbn [data_leave related].
    + destruct (String.eqb l "dataflow"); exact H.
    + destruct H as (-> & -> & H1 & H2). destruct a2; cbn [related].
      * destruct (String.eqb l "source"); [|repeat split; assumption]. destruct u2; [split; assumption|]. unfold seven in H1, H2. seven v1. seven v2. split; reflexivity.
      * destruct (String.eqb l "destination"); [|repeat split; assumption]. destruct u2; [split; assumption|]. unfold seven in H1, H2. seven v1. seven v2. split; reflexivity.
    + reflexivity.
Qed.
Lemma data_leaves l s1 s2 : data_same s1 s2 -> related data_same (data_leave l s1) (data_leave l s2).
Proof.
  revert s1 s2. intros [v1|a1 u1 v1|v1] [v2|a2 u2 v2|v2] H; try contradiction; cbn [data_leave related].
  - destruct (String.eqb l "dataflow"); exact H.
  - destruct H as (-> & -> & H1 & H2). destruct a2; cbn [related].
    + destruct (String.eqb l "source"); [|repeat split; assumption]. destruct u2; [split; assumption|]. unfold seven in H1, H2. seven v1. seven v2. split; reflexivity.
    + destruct (String.eqb l "destination"); [|repeat split; assumption]. destruct u2; [split; assumption|]. unfold seven in H1, H2. seven v1. seven v2. split; reflexivity.
  - reflexivity.
Qed.
Lemma defs_leaves l s1 s2 : definitions_same s1 s2 -> related definitions_same (defs_leave l s1) (defs_leave l s2).
Proof. destruct s1, s2; try contradiction; cbn; trivial. Qed.
Lemma defs_walk ks s1 s2 : definitions_same s1 s2 -> related definitions_same (walk_all defs_enter defs_leave ks s1) (walk_all defs_enter defs_leave ks s2).
Proof.
  apply walk_all_related; clear; [|exact defs_leaves].
  intros k s1 s2 H. destruct k as [s|sp l a ks d]; destruct s1, s2; try contradiction; try reflexivity; cbn [definitions_same] in H; subst; cbn [defs_enter].
  - destruct (String.eqb l "standards"); [reflexivity|]. destruct (String.eqb l "patents"); [reflexivity|exact I].
  - destruct (String.eqb l "standard"); [|reflexivity]. unfold bind. destruct (decode_fresh d (TRef "StandardDefinition")); reflexivity.
  - destruct (String.eqb l "patent"); [|destruct (String.eqb l "patentFamily"); [|reflexivity]]; unfold bind; match goal with |- context [decode_fresh ?x ?y] => destruct (decode_fresh x y) end; reflexivity.
Qed.

Lemma unmarshal_same n m sp l a ks c1 c2 : In (n, m) xml_methods -> m <> MLicense -> xsized (TRef n) c1 -> xsized (TRef n) c2 ->
  out_same (xsized (TRef n)) (unmarshal m (TRef n) sp l a ks c1) (unmarshal m (TRef n) sp l a ks c2).
Proof.
  intros A N S1 S2.
  assert (T : forall t, (forall vs, xsized t (VStruct vs)) -> forall r : result xerr val, (forall v, r = Ok v -> exists vs, v = VStruct vs) -> out_same (xsized t) r r).
  { intros t Z r H. apply refl_same. intros v E. destruct (H v E) as (vs & ->). apply Z. }
  assert (V : forall t c, (exists fs, kind_of t = KStruct fs) -> xsized t c -> exists vs, c = VStruct vs).
  { intros t c (fs & K) Z. destruct (sized_struct _ _ _ _ _ K Z) as (vs & Q & _). exists vs. exact Q. }
  assert (IK : forall t, kind_of t <> KBad -> xready t = Some (lt 0) -> (exists fs, kind_of t = KStruct fs) -> xsized t c1 -> xsized t c2 ->
    out_same (xsized t) (unmarshal MIKEv2 t sp l a ks c1) (unmarshal MIKEv2 t sp l a ks c2)).
  { intros t K R (fs & Kt) Z1 Z2. destruct (sized_struct _ _ _ _ _ Kt Z1) as (v1 & -> & L1). destruct (sized_struct _ _ _ _ _ Kt Z2) as (v2 & -> & L2).
    rewrite R in L1, L2. destruct v1 as [|x1 v1]; [cbn in L1; lia|]. destruct v2 as [|x2 v2]; [cbn in L2; lia|]. cbn [unmarshal].
    destruct (decode_raw (xfield "Content" TStr ",chardata" :: tl (fields_of t)) sp l a ks) as [[|c r]|e]; cbn [bind]; try reflexivity.
    assert (Q : forall y ys, xsized t (VStruct (y :: ys))) by (intros y ys; unfold xsized; cbn [sized]; rewrite Kt, R; cbn [length]; lia).
    destruct (negb (String.eqb (trim_space (str_of c)) "") && forallb zero_value r)%bool; split; apply Q. }
  unfold xml_methods in A. cbn [In] in A.
  repeat (destruct A as [A|A]; [injection A as <- <-|]).
  all: try contradiction.
  all: try (apply IK; [discriminate|reflexivity|eexists; reflexivity|exact S1|exact S2]).
  all: clear IK.
  all: match type of S1 with xsized ?t _ => try (assert (K : exists fs, kind_of t = KStruct fs) by (eexists; vm_compute; reflexivity);
         destruct (V _ _ K S1) as (v1 & ->); destruct (V _ _ K S2) as (v2 & ->); clear K) end.
  - (* BOMReference *) cbn [unmarshal]. apply refl_same. intros v _. apply scalar_sized; discriminate.
  - (* Copyright *) cbn [unmarshal]. apply refl_same. intros v [= <-]. exact I.
  - (* Dependency *) cbn [unmarshal]. apply T; [intros; exact I|]. intros v E. apply bind_ok in E as (r & _ & E).
    destruct r as [|? [|? [|? [|? ?]]]]; try discriminate E. injection E as <-. eexists; reflexivity.
  - (* EnvironmentVariables *) cbn [unmarshal]. apply refl_same. intros v E. apply bind_ok in E as (r & _ & [= <-]). exact I.
  - (* Licenses *) cbn [unmarshal]. apply refl_same. intros v E. apply bind_ok in E as (r & _ & [= <-]). exact I.
  - (* MLDatasetChoice *) change (2 = length v1) in S1. change (2 = length v2) in S2. do 3 (destruct v1 as [|? v1]; try discriminate S1). do 3 (destruct v2 as [|? v2]; try discriminate S2). cbn [unmarshal].
    destruct (decode_raw (xfield "Ref" TStr "ref" :: fields_ComponentData) sp l a ks) as [[|x d]|e]; cbn [bind]; try reflexivity. destruct (nonempty x); split; reflexivity.
  - (* SpecVersion *) cbn [unmarshal]. apply refl_same. intros v _. apply scalar_sized; discriminate.
  - (* CertificateState *) change (2 = length v1) in S1. change (2 = length v2) in S2. do 3 (destruct v1 as [|? v1]; try discriminate S1). do 3 (destruct v2 as [|? v2]; try discriminate S2). cbn [unmarshal].
    match goal with |- context [decode_raw ?f sp l a ks] => destruct (decode_raw f sp l a ks) as [[|x [|y [|z [|u [|? ?]]]]]|e] end; cbn [bind]; try reflexivity. destruct (nonempty x); split; reflexivity.
  - (* CertificateExtension *) change (2 = length v1) in S1. change (2 = length v2) in S2. do 3 (destruct v1 as [|? v1]; try discriminate S1). do 3 (destruct v2 as [|? v2]; try discriminate S2). cbn [unmarshal].
    match goal with |- context [decode_raw ?f sp l a ks] => destruct (decode_raw f sp l a ks) as [[|x [|y [|z [|u [|? ?]]]]]|e] end; cbn [bind]; try reflexivity. destruct (nonempty x); split; reflexivity.
  - (* AsserterChoice *) cbn [unmarshal]. apply T; [intros; exact I|]. intros v E. apply bind_ok in E as (r & _ & [= <-]). eexists; reflexivity.
  - (* ToolsChoice *) cbn [unmarshal]. destruct (each_kid dec_tools ks ([], VSlice None, VSlice None)) as [[[tools comps] servs]|e]; cbn [bind]; [|reflexivity].
    match goal with |- out_same _ (if ?b then _ else if ?c then _ else _) _ => destruct b; [reflexivity|]; destruct c; split; exact I end.
  - (* Evidence *) cbn [unmarshal]. apply T; [intros; exact I|]. intros v E. apply bind_ok in E as ([ids rest] & _ & [= <-]). eexists; reflexivity.
  - (* DataClassification *) change (7 = length v1) in S1. change (7 = length v2) in S2. do 8 (destruct v1 as [|? v1]; try discriminate S1). do 8 (destruct v2 as [|? v2]; try discriminate S2). cbn [unmarshal].
    match goal with |- out_same _ (bind (walk_all _ _ _ ?s1) _) (bind (walk_all _ _ _ ?s2) _) => pose proof (data_walk ks s1 s2 (conj eq_refl eq_refl)) as H end.
    match type of H with related _ ?x ?y => destruct x as [t1|e1], y as [t2|e2]; try contradiction; [|exact H] end. cbn [bind]. cbn [related] in H. apply (data_leaves l) in H.
    destruct (data_leave l t1) as [u1|e1], (data_leave l t2) as [u2|e2]; cbn [related] in H; try contradiction; [|exact H]. cbn [bind].
    destruct u1 as [w1|? ? w1|w1], u2 as [w2|? ? w2|w2]; try contradiction; try reflexivity. destruct H as (H1 & H2). split; [exact (eq_sym H1)|exact (eq_sym H2)].
  - (* Definitions *) change (2 = length v1) in S1. change (2 = length v2) in S2. do 3 (destruct v1 as [|? v1]; try discriminate S1). do 3 (destruct v2 as [|? v2]; try discriminate S2). cbn [unmarshal].
    match goal with |- out_same _ (bind (walk_all _ _ _ ?s1) _) (bind (walk_all _ _ _ ?s2) _) => pose proof (defs_walk ks s1 s2 I) as H end.
    match type of H with related _ ?x ?y => destruct x as [t1|e1], y as [t2|e2]; try contradiction; [|exact H] end. cbn [bind]. cbn [related] in H. apply (defs_leaves l) in H.
    destruct (defs_leave l t1) as [u1|e1], (defs_leave l t2) as [u2|e2]; cbn [related] in H; try contradiction; [|exact H]. cbn [bind].
    destruct u1, u2; try contradiction; split; reflexivity.
Qed.
Lemma value_same sp l a ks t n c1 c2 : list_all same_kid ks -> wk t = true -> xsized t c1 -> xsized t c2 ->
  out_same (xsized t) (dec_value sp l a ks t n c1) (dec_value sp l a ks t n c2).
Proof.
  intros G W S1 S2. unfold dec_value. destruct (unmarshaler t) eqn:U.
  all: try (exfalso; unfold unmarshaler in U; destruct (marshaler t); discriminate U).
  all: try (destruct t as [| | | | | | |nm]; try discriminate U; unfold unmarshaler, marshaler in U; destruct (assoc nm xml_methods) as [m|] eqn:A; [|discriminate U];
    apply methods_in in A; destruct m; try discriminate U; apply unmarshal_same; [exact A|discriminate|exact S1|exact S2]).
  destruct (kind_of t) as [| | | | | |fs|] eqn:K; try (apply refl_same; intros v E; exact (copy_sized _ _ _ E)).
  assert (R : xready t = None) by (unfold xready; rewrite U; reflexivity).
  destruct (sized_struct _ _ _ _ _ K S1) as (v1 & -> & Z1). destruct (sized_struct _ _ _ _ _ K S2) as (v2 & -> & Z2). rewrite R in Z1, Z2. cbn [fields_of_val].
  eapply bind_same; [exact (dec_struct_same fs sp l a ks n v1 v2 (wk_struct _ _ K) (struct_flat _ _ K) G Z1 Z2)|].
  intros w1 w2 W1 W2. cbn [out_same]. unfold xsized. cbn [sized]. rewrite K, R. split; assumption.
Qed.
Lemma slice_same {Lim : Limit} sp l a ks t n c1 c2 : list_all same_kid ks -> wk t = true -> xsized t c1 -> xsized t c2 ->
  out_same (xsized t) (dec_slice sp l a ks t n c1) (dec_slice sp l a ks t n c2).
Proof.
  intros G W S1 S2. unfold dec_slice. destruct (unmarshaler t) eqn:U; try (apply value_same; assumption).
  destruct (kind_of t) as [| | | | |t'| |] eqn:K; try (apply value_same; assumption). destruct (limit <=? N.succ n)%N; [reflexivity|].
  destruct (dec_value sp l a ks t' (N.succ n) (zero_of t')); cbn [bind out_same]; [|reflexivity]. unfold xsized. cbn [sized]. rewrite K. split; exact I.
Qed.
Lemma elem_same {Lim : Limit} sp l a ks : list_all same_kid ks -> xsame (dec_elem sp l a ks).
Proof.
  intros G t n c1 c2 W S1 S2. unfold dec_elem. destruct (limit <=? n)%N; [reflexivity|].
  destruct (kind_of t) as [| | | |t'| | |] eqn:K; try (apply slice_same; assumption). pose proof (wk_ptr _ _ W K) as W'.
  assert (C : forall c, xsized t c -> xsized t' (match c with VPtr (Some x) => x | _ => zero_of t' end)).
  { intros c Q. destruct c as [| | | |[x|]| |]; try (apply zero_sized; [exact xready_ready|exact W']). unfold xsized in Q. cbn [sized] in Q. rewrite K in Q. exact Q. }
  eapply bind_same; [apply slice_same; [exact G|exact W'|apply C, S1|apply C, S2]|]. intros v1 v2 V1 V2. cbn [out_same]. unfold xsized, some_ptr. cbn [sized]. rewrite K. auto.
Qed.
Lemma waiting_same {Lim : Limit} x : same_kid (waiting x).
Proof.
  induction x as [s|sp l a ks IH] using xml_induction; [exact I|]. cbn [waiting same_kid].
  assert (G : list_all same_kid (map waiting ks)) by (apply list_all_forall, Forall_map, IH). split; [apply elem_same, G|exact G].
Qed.
Theorem xml_outcome entries x b1 b2 : match bom_of_xml entries x b1, bom_of_xml entries x b2 with Ok _, Ok _ => True | Err e1, Err e2 => e1 = e2 | _, _ => False end.
Proof.
  unfold bom_of_xml, bom_within, xdec. pose proof (@waiting_same go_limit x) as G. destruct (waiting x) as [s|sp l a ks d]; [reflexivity|]. destruct G as (G & _).
  assert (Z : forall b, xsized (TRef "BOM") (reify_BOM b)) by (intros b; apply wt_sized; [exact xready_ready|apply typed_BOM]).
  specialize (G (TRef "BOM") 0%N (reify_BOM b1) (reify_BOM b2) eq_refl (Z b1) (Z b2)). unfold out_same in G.
  destruct (d (TRef "BOM") 0%N (reify_BOM b1)), (d (TRef "BOM") 0%N (reify_BOM b2)); cbn [bind]; try contradiction; auto.
Qed.
