(** What is written for a version at the places of SiteSpec.v. *)
From Coq Require Import Lia.
From Verif Require Import Base Types Univ TypeTable Wt Reify Consts LinkModel Version Numbers GobModel JsonModel JsonProofs ConvertModel ConvertSpec ConvertReach ConvertPropProofs ConvertReachProofs SchemaSpec JsonBom JsonNulls SiteSpec.
Local Open Scope string_scope.

(** [x] is what is written for [v]. *)
Definition enc (t : ty) (v : val) (x : json) : Prop := exists esc o, jenc esc t v = Ok o /\ x = erase o.

Lemma enc_ptr {A} t (f : A -> val) p x : enc t (vptr f p) x -> x = JNull \/ exists y, p = Some y /\ enc (elem_ty t) (f y) x.
Proof.
  intros (esc & o & E & ->). destruct p as [y|]; cbn [vptr option_map jenc] in E.
  - right. exists y. split; [reflexivity|]. exists esc, o. split; [exact E|reflexivity].
  - left. injection E as <-. reflexivity.
Qed.
Lemma enc_slice {A} t (f : A -> val) l js j : enc t (vslice f l) (JArr js) -> In j js -> exists i y, nth_error (match l with Some l => l | None => [] end) i = Some y /\ enc (elem_ty t) (f y) j.
Proof.
  intros (esc & o & E & X) J. destruct l as [l|].
  - change (vslice f (Some l)) with (VSlice (Some (map f l))) in E. rewrite jenc_slice in E. apply bind_ok in E as (os & E & Y). injection Y as <-. cbn [erase] in X. injection X as ->. apply in_map_iff in J as (o & <- & J).
    revert os E J. induction l as [|a l IH]; cbn [map enc_elements]; intros os E J.
    + injection E as <-. destruct J.
    + apply bind_ok in E as (oa & Ea & E). apply bind_ok in E as (os' & Es & E). injection E as <-. destruct J as [<-|J].
      * exists 0%nat, a. split; [reflexivity|]. exists esc, oa. split; [exact Ea|reflexivity].
      * destruct (IH os' Es J) as (i & y & N & F). exists (S i), y. split; assumption.
  - cbn [vslice option_map jenc] in E. injection E as <-. discriminate X.
Qed.
Lemma enc_list {A} t (f : A -> val) p js j : enc t (vptr (vslice f) p) (JArr js) -> In j js -> exists i y, nth_error (members p) i = Some y /\ enc (elem_ty (elem_ty t)) (f y) j.
Proof.
  intros E J. apply enc_ptr in E as [E|(l & -> & E)]; [discriminate|]. destruct (enc_slice _ _ _ _ _ E J) as (i & y & N & F). exists i, y. split; [|exact F]. destruct l; exact N.
Qed.

(** The members of an object come from the fields that are not left out. *)
Fixpoint picked (fs : list field) (vs : list val) (k : string) (x : json) : Prop :=
  match fs, vs with
  | f :: fs', v :: vs' => (exists omit, json_info f = Some (k, omit) /\ (omit && empty_value v)%bool = false /\ enc (f_ty f) v x) \/ picked fs' vs' k x
  | _, _ => False
  end.
Lemma enc_members_picked esc k x : forall fs vs ms, enc_members esc fs vs (encs vs fs) = Ok ms -> In (k, x) ms -> picked fs vs k (erase x).
Proof.
  induction fs as [|f fs IH]; intros [|v vs] ms E I; cbn [encs enc_members] in E; try (injection E as <-; destruct I). cbn [picked].
  destruct (json_info f) as [[n omit]|] eqn:J; [|right; exact (IH _ _ E I)].
  destruct (omit && empty_value v)%bool eqn:O; [right; exact (IH _ _ E I)|]. apply bind_ok in E as (o & Eo & E). apply bind_ok in E as (ms' & Em & E). injection E as <-. destruct I as [[= -> ->]|I].
  - left. exists omit. split; [reflexivity|]. split; [exact O|]. exists esc, x. split; [exact Eo|reflexivity].
  - right. exact (IH _ _ Em I).
Qed.
Lemma enc_struct_picked esc fs vs o k x : enc_struct esc fs vs (encs vs fs) = Ok o -> sub (erase o) k x -> picked fs vs k x.
Proof.
  intros E (ms & X & I). unfold enc_struct in E. apply bind_ok in E as (l & E & Y). injection Y as <-. cbn [erase] in X. injection X as <-.
  apply in_map_iff in I as ((k', x') & [= <- <-] & I). exact (enc_members_picked esc k' x' fs vs l E I).
Qed.
Lemma enc_member t vs j k x : marshal_hook t = HNone -> enc t (VStruct vs) j -> sub j k x -> picked (fields_of t) vs k x.
Proof. intros H (esc & o & E & ->) S. rewrite jenc_struct, H in E. exact (enc_struct_picked esc _ _ o k x E S). Qed.
Lemma enc_license vs j k x : enc (TRef "License") (VStruct vs) j -> sub j k x -> picked fields_License vs k x.
Proof.
  intros (esc & o & E & ->) S. rewrite jenc_struct in E. change (marshal_hook (TRef "License")) with HLicense in E. change (fields_of (TRef "License")) with fields_License in E. cbv iota in E. apply scanned_same in E.
  destruct vs as [|v0 [|v1 [|v2 vs]]]; cbn [marshal] in E; try discriminate E. destruct (nonempty v1 && nonempty v2)%bool; [discriminate|]. destruct (negb (nonempty v1 || nonempty v2)); [discriminate|].
  exact (enc_struct_picked true _ _ o k x E S).
Qed.

(** ** Where what is written comes from *)
Lemma nth_in {A} (l : list A) i y : nth_error l i = Some y -> In y l.
Proof. apply nth_error_In. Qed.
Local Open Scope Z_scope.
Lemma Forall2_right {A C} (R : A -> C -> Prop) l l' y : Forall2 R l l' -> In y l' -> exists x, R x y.
Proof. induction 1 as [|a b l l' H _ IH]; intros I; [destruct I|]. destruct I as [<-|I]; [exists a; exact H|exact (IH I)]. Qed.
Inductive source (sv : SpecVersion) (B : BOM) : string -> json -> Prop :=
| f_document x : enc (TRef "BOM") (reify_BOM B) x -> source sv B "" x
| f_metadata m x : BOM_Metadata B = Some m -> enc (TRef "Metadata") (reify_Metadata m) x -> source sv B "metadata" x
| f_component r steps c x : component_at B r steps = Some c -> enc (TRef "Component") (reify_Component c) x -> source sv B "component" x
| f_service i path s x : service_at B i path = Some s -> enc (TRef "Service") (reify_Service s) x -> source sv B "service" x
| f_dependency d x : In d (members (BOM_Dependencies B)) -> enc (TRef "Dependency") (reify_Dependency d) x -> source sv B "dependency" x
| f_composition c x : v1_3 <= sv -> older sv v1_5 (Composition_BOMRef c = "" /\ Composition_Vulnerabilities c = None) -> enc (TRef "Composition") (reify_Composition c) x -> source sv B "compositions" x
| f_vulnerability w x : v1_4 <= sv -> older sv v1_5 (Vulnerability_ProofOfConcept w = None /\ Vulnerability_Rejected w = "" /\ Vulnerability_Workaround w = "") -> enc (TRef "Vulnerability") (reify_Vulnerability w) x -> source sv B "vulnerability" x
| f_evidence e x : v1_3 <= sv -> evidence_clean sv e -> enc (TRef "Evidence") (reify_Evidence e) x -> source sv B "componentEvidence" x
| f_reference p r x : extrefs_clean sv p -> In r (members p) -> enc (TRef "ExternalReference") (reify_ExternalReference r) x -> source sv B "externalReference" x
| f_license p lc l x : licenses_clean sv p -> In lc (members p) -> LicenseChoice_License lc = Some l -> enc (TRef "License") (reify_License l) x -> source sv B "license" x
| f_entity e x : entity_clean sv e -> enc (TRef "OrganizationalEntity") (reify_OrganizationalEntity e) x -> source sv B "organizationalEntity" x
| f_null n : source sv B n JNull.

Lemma component_below_app c s1 s2 : component_below c (s1 ++ s2)%list = match component_below c s1 with Some c' => component_below c' s2 | None => None end.
Proof. revert c. induction s1 as [|s s1 IH]; intros c; cbn [component_below app]; [reflexivity|]. destruct (child c s); [apply IH|reflexivity]. Qed.
Lemma component_step B r steps c s c' : component_at B r steps = Some c -> child c s = Some c' -> component_at B r (steps ++ [s])%list = Some c'.
Proof. unfold component_at. destruct (root_component B r) as [c0|]; [|discriminate]. intros E C. rewrite component_below_app, E. cbn [component_below]. rewrite C. reflexivity. Qed.
Lemma service_below_app s p1 p2 : service_below s (p1 ++ p2)%list = match service_below s p1 with Some s' => service_below s' p2 | None => None end.
Proof. revert s. induction p1 as [|i p1 IH]; intros s; cbn [service_below app]; [reflexivity|]. destruct (nth_error (members (Service_Services s)) i); [apply IH|reflexivity]. Qed.
Lemma service_step B i path s k s' : service_at B i path = Some s -> nth_error (members (Service_Services s)) k = Some s' -> service_at B i (path ++ [k])%list = Some s'.
Proof. unfold service_at. destruct (nth_error (members (BOM_Services B)) i) as [s0|]; [|discriminate]. intros E C. rewrite service_below_app, E. cbn [service_below]. rewrite C. reflexivity. Qed.

(** The field that a member with a given name comes from *)
Fixpoint found (fs : list field) (vs : list val) (k : string) : option (ty * val * bool) :=
  match fs, vs with
  | f :: fs', v :: vs' => match json_info f with
                          | Some (n, omit) => if String.eqb n k then Some (f_ty f, v, omit) else found fs' vs' k
                          | None => found fs' vs' k
                          end
  | _, _ => None
  end.
Fixpoint names (fs : list field) : list string :=
  match fs with
  | [] => []
  | f :: fs' => match json_info f with Some (n, _) => n :: names fs' | None => names fs' end
  end.
Fixpoint distinct (l : list string) : bool := match l with [] => true | a :: l' => negb (existsb (String.eqb a) l') && distinct l' end.
Lemma picked_name k x : forall fs vs, picked fs vs k x -> In k (names fs).
Proof.
  induction fs as [|f fs IH]; intros [|v vs] P; try contradiction P. cbn [names]. destruct P as [(omit & J & _)|P]; [rewrite J; left; reflexivity|].
  destruct (json_info f) as [[n o]|]; [right|]; exact (IH vs P).
Qed.
Lemma picked_found k x t v omit : forall fs vs, distinct (names fs) = true -> picked fs vs k x -> found fs vs k = Some (t, v, omit) -> (omit && empty_value v)%bool = false /\ enc t v x.
Proof.
  induction fs as [|f fs IH]; intros [|w vs] D P F; try contradiction P. cbn [found names picked] in D, P, F. destruct (json_info f) as [[n o]|] eqn:J.
  - cbn [distinct] in D. apply andb_prop in D as (D1 & D2). destruct (String.eqb n k) eqn:N.
    + apply String.eqb_eq in N. subst n. injection F as <- <- <-. destruct P as [(o' & [= <-] & O & E)|P]; [split; assumption|].
      apply picked_name in P. apply negb_true_iff in D1. assert (X : existsb (String.eqb k) (names fs) = true) by (apply existsb_exists; exists k; split; [exact P|apply String.eqb_refl]). rewrite X in D1. discriminate.
    + destruct P as [(o' & [= -> _] & _)|P]; [rewrite String.eqb_refl in N; discriminate|]. exact (IH vs D2 P F).
  - destruct P as [(o' & [=] & _)|P]. exact (IH vs D P F).
Qed.
Lemma member_of n vs j k x t v omit : marshal_hook (TRef n) = HNone -> distinct (names (fields_of (TRef n))) = true -> enc (TRef n) (VStruct vs) j -> sub j k x -> found (fields_of (TRef n)) vs k = Some (t, v, omit) ->
  (omit && empty_value v)%bool = false /\ enc t v x.
Proof. intros H D E S F. exact (picked_found k x t v omit _ _ D (enc_member _ _ _ _ _ H E S) F). Qed.
Lemma items_of {A} n vs j k x t (f : A -> val) p omit : marshal_hook (TRef n) = HNone -> distinct (names (fields_of (TRef n))) = true -> enc (TRef n) (VStruct vs) j -> item j k x ->
  found (fields_of (TRef n)) vs k = Some (TPtr (TSlice t), vptr (vslice f) p, omit) -> exists i y, nth_error (members p) i = Some y /\ enc t (f y) x.
Proof. intros H D E (l & S & I) F. destruct (member_of n vs j k _ _ _ _ H D E S F) as (_ & M). exact (enc_list (TPtr (TSlice t)) f p l x M I). Qed.
Lemma named_items_of {A} n vs j k x T (f : A -> val) p omit : marshal_hook (TRef n) = HNone -> distinct (names (fields_of (TRef n))) = true -> enc (TRef n) (VStruct vs) j -> item j k x ->
  found (fields_of (TRef n)) vs k = Some (TPtr T, vptr (vslice f) p, omit) -> exists i y, nth_error (members p) i = Some y /\ enc (elem_ty T) (f y) x.
Proof. intros H D E (l & S & I) F. destruct (member_of n vs j k _ _ _ _ H D E S F) as (_ & M). exact (enc_list (TPtr T) f p l x M I). Qed.
Lemma pointed_of {A} n vs j k x t (f : A -> val) p omit : marshal_hook (TRef n) = HNone -> distinct (names (fields_of (TRef n))) = true -> enc (TRef n) (VStruct vs) j -> sub j k x ->
  found (fields_of (TRef n)) vs k = Some (TPtr t, vptr f p, omit) -> x = JNull \/ exists y, p = Some y /\ enc t (f y) x.
Proof. intros H D E S F. destruct (member_of n vs j k _ _ _ _ H D E S F) as (_ & M). exact (enc_ptr (TPtr t) f p x M). Qed.

Lemma sub_null k x : ~ sub JNull k x.
Proof. intros (ms & [=] & _). Qed.
Lemma item_null k x : ~ item JNull k x.
Proof. intros (l & S & _). exact (sub_null _ _ S). Qed.
Definition component_parts (c : Component) : list val := match reify_Component c with VStruct vs => vs | _ => [] end.
Lemma component_struct c : reify_Component c = VStruct (component_parts c).
Proof. destruct c. reflexivity. Qed.
Definition service_parts (s : Service) : list val := match reify_Service s with VStruct vs => vs | _ => [] end.
Lemma service_struct s : reify_Service s = VStruct (service_parts s).
Proof. destruct s. reflexivity. Qed.

Section Source.
  Variables (sv : SpecVersion) (b : BOM) (doc : json).
  Let B := convert sv b.
  Hypothesis E : enc (TRef "BOM") (reify_BOM B) doc.
  Lemma metadata_source x : sub doc "metadata" x -> source sv B "metadata" x.
  Proof. intros S. destruct (pointed_of "BOM" _ doc "metadata" x (TRef "Metadata") reify_Metadata (BOM_Metadata B) true eq_refl eq_refl E S eq_refl) as [->|(m & M & X)]; [apply f_null|exact (f_metadata sv B m x M X)]. Qed.
  Lemma listed_source x : item doc "components" x -> source sv B "component" x.
  Proof.
    intros S. destruct (items_of "BOM" _ doc "components" x (TRef "Component") reify_Component (BOM_Components B) true eq_refl eq_refl E S eq_refl) as (i & c & N & X).
    apply (f_component sv B (Listed i) [] c x); [|exact X]. unfold component_at, root_component. rewrite N. reflexivity.
  Qed.
  Lemma service_source x : item doc "services" x -> source sv B "service" x.
  Proof.
    intros S. destruct (items_of "BOM" _ doc "services" x (TRef "Service") reify_Service (BOM_Services B) true eq_refl eq_refl E S eq_refl) as (i & c & N & X).
    apply (f_service sv B i [] c x); [|exact X]. unfold service_at. rewrite N. reflexivity.
  Qed.
  Lemma dependency_source x : item doc "dependencies" x -> source sv B "dependency" x.
  Proof.
    intros S. destruct (items_of "BOM" _ doc "dependencies" x (TRef "Dependency") reify_Dependency (BOM_Dependencies B) true eq_refl eq_refl E S eq_refl) as (i & c & N & X).
    exact (f_dependency sv B c x (nth_in _ _ _ N) X).
  Qed.
  Lemma composition_source x : item doc "compositions" x -> source sv B "compositions" x.
  Proof.
    intros S. destruct (items_of "BOM" _ doc "compositions" x (TRef "Composition") reify_Composition (BOM_Compositions B) true eq_refl eq_refl E S eq_refl) as (i & c & N & X). apply nth_in in N.
    destruct (Z_lt_le_dec sv v1_3) as [L|L]; [destruct (sections_removed_convert sv b) as (_ & _ & C & _); unfold B in N; rewrite (C L) in N; destruct N|].
    destruct (Forall2_right _ _ _ c (compositions_downgraded sv b L) N) as (c0 & R). refine (f_composition sv B c x L _ X). apply R.
  Qed.
  Lemma vulnerability_source x : item doc "vulnerabilities" x -> source sv B "vulnerability" x.
  Proof.
    intros S. destruct (items_of "BOM" _ doc "vulnerabilities" x (TRef "Vulnerability") reify_Vulnerability (BOM_Vulnerabilities B) true eq_refl eq_refl E S eq_refl) as (i & c & N & X). apply nth_in in N.
    destruct (Z_lt_le_dec sv v1_4) as [L|L]; [destruct (sections_removed_convert sv b) as (_ & _ & _ & C & _); unfold B in N; rewrite (C L) in N; destruct N|].
    destruct (Forall2_right _ _ _ c (vulnerabilities_downgraded sv b L) N) as (c0 & R). refine (f_vulnerability sv B c x L _ X). unfold vulnerability_downgraded in R. decompose [and] R. intros K.
    match goal with H : older sv v1_5 _ |- _ => destruct (H K) as (? & ? & ? & _) end. auto.
  Qed.
  Lemma evidence_source c x : source sv B "component" c -> sub c "evidence" x -> source sv B "componentEvidence" x.
  Proof.
    intros F S. inversion F as [|  | r steps c' ? C X| | | | | | | | | ]; subst; [|destruct (sub_null _ _ S)]. rewrite component_struct in X.
    assert (Q : found (fields_of (TRef "Component")) (component_parts c') "evidence" = Some (TPtr (TRef "Evidence"), vptr reify_Evidence (Component_Evidence c'), true)) by (destruct c'; reflexivity).
    destruct (pointed_of "Component" _ c "evidence" x _ _ _ _ eq_refl eq_refl X S Q) as [->|(e & P & Y)]; [apply f_null|]. destruct (component_gates sv b r steps c' C) as (_ & _ & C3 & _ & _ & _ & _ & _ & _ & G & _).
    destruct (Z_lt_le_dec sv v1_3) as [L|L]; [destruct (C3 L) as (_ & Z); rewrite Z in P; discriminate|]. exact (f_evidence sv B e x L (G e P) Y).
  Qed.
  Lemma described_source m x : source sv B "metadata" m -> sub m "component" x -> source sv B "component" x.
  Proof.
    intros F S. inversion F as [| m' ? M X| | | | | | | | | | ]; subst; [|destruct (sub_null _ _ S)].
    destruct (pointed_of "Metadata" _ m "component" x (TRef "Component") reify_Component (Metadata_Component m') true eq_refl eq_refl X S eq_refl) as [->|(c & C & Y)]; [apply f_null|].
    apply (f_component sv B Described [] c x); [|exact Y]. unfold component_at, root_component. rewrite M, C. reflexivity.
  Qed.
  Lemma nested_source c x : source sv B "component" c -> item c "components" x -> source sv B "component" x.
  Proof.
    intros F S. inversion F as [| | r steps c' ? C X| | | | | | | | | ]; subst; [|destruct (item_null _ _ S)]. rewrite component_struct in X.
    assert (Q : found (fields_of (TRef "Component")) (component_parts c') "components" = Some (TPtr (TSlice (TRef "Component")), vptr (vslice reify_Component) (Component_Components c'), true)) by (destruct c'; reflexivity).
    destruct (items_of "Component" _ c "components" x _ _ _ _ eq_refl eq_refl X S Q) as (i & y & N & Y).
    apply (f_component sv B r (steps ++ [Nested i])%list y x); [|exact Y]. exact (component_step B r steps c' (Nested i) y C N).
  Qed.
  Lemma pedigree_source c p k x : source sv B "component" c -> sub c "pedigree" p -> In k ["ancestors"; "descendants"; "variants"] -> item p k x -> source sv B "component" x.
  Proof.
    intros F S K I. inversion F as [| | r steps c' ? C X| | | | | | | | | ]; subst; [|destruct (sub_null _ _ S)]. rewrite component_struct in X.
    assert (Q : found (fields_of (TRef "Component")) (component_parts c') "pedigree" = Some (TPtr (TRef "Pedigree"), vptr (reify_Pedigree_ reify_Component) (Component_Pedigree c'), true)) by (destruct c'; reflexivity).
    destruct (pointed_of "Component" _ c "pedigree" p _ _ _ _ eq_refl eq_refl X S Q) as [->|(q & P & Y)]; [destruct (item_null _ _ I)|].
    destruct K as [<-|[<-|[<-|[]]]].
    - destruct (items_of "Pedigree" _ p "ancestors" x (TRef "Component") reify_Component (Pedigree_Ancestors q) true eq_refl eq_refl Y I eq_refl) as (i & y & N & Z).
      apply (f_component sv B r (steps ++ [Ancestor i])%list y x); [|exact Z]. apply (component_step B r steps c' (Ancestor i) y C). cbn [child]. unfold pedigree_list. rewrite P. exact N.
    - destruct (items_of "Pedigree" _ p "descendants" x (TRef "Component") reify_Component (Pedigree_Descendants q) true eq_refl eq_refl Y I eq_refl) as (i & y & N & Z).
      apply (f_component sv B r (steps ++ [Descendant i])%list y x); [|exact Z]. apply (component_step B r steps c' (Descendant i) y C). cbn [child]. unfold pedigree_list. rewrite P. exact N.
    - destruct (items_of "Pedigree" _ p "variants" x (TRef "Component") reify_Component (Pedigree_Variants q) true eq_refl eq_refl Y I eq_refl) as (i & y & N & Z).
      apply (f_component sv B r (steps ++ [Variant i])%list y x); [|exact Z]. apply (component_step B r steps c' (Variant i) y C). cbn [child]. unfold pedigree_list. rewrite P. exact N.
  Qed.
  Lemma inner_source s x : source sv B "service" s -> item s "services" x -> source sv B "service" x.
  Proof.
    intros F S. inversion F as [| | | i path s' ? C X| | | | | | | | ]; subst; [|destruct (item_null _ _ S)]. rewrite service_struct in X.
    assert (Q : found (fields_of (TRef "Service")) (service_parts s') "services" = Some (TPtr (TSlice (TRef "Service")), vptr (vslice reify_Service) (Service_Services s'), true)) by (destruct s'; reflexivity).
    destruct (items_of "Service" _ s "services" x _ _ _ _ eq_refl eq_refl X S Q) as (k & y & N & Y).
    apply (f_service sv B i (path ++ [k])%list y x); [|exact Y]. exact (service_step B i path s' k y C N).
  Qed.
  Lemma component_references c x : source sv B "component" c -> item c "externalReferences" x -> source sv B "externalReference" x.
  Proof.
    intros F S. inversion F as [| | r steps c' ? C X| | | | | | | | | ]; subst; [|destruct (item_null _ _ S)]. rewrite component_struct in X.
    assert (Q : found (fields_of (TRef "Component")) (component_parts c') "externalReferences" = Some (TPtr (TSlice (TRef "ExternalReference")), vptr (vslice reify_ExternalReference) (Component_ExternalReferences c'), true)) by (destruct c'; reflexivity).
    destruct (items_of "Component" _ c "externalReferences" x _ _ _ _ eq_refl eq_refl X S Q) as (i & y & N & Y).
    refine (f_reference sv B (Component_ExternalReferences c') y x _ (nth_in _ _ _ N) Y). apply (component_gates sv b r steps c' C).
  Qed.
  Lemma service_references s x : source sv B "service" s -> item s "externalReferences" x -> source sv B "externalReference" x.
  Proof.
    intros F S. inversion F as [| | | i path s' ? C X| | | | | | | | ]; subst; [|destruct (item_null _ _ S)]. rewrite service_struct in X.
    assert (Q : found (fields_of (TRef "Service")) (service_parts s') "externalReferences" = Some (TPtr (TSlice (TRef "ExternalReference")), vptr (vslice reify_ExternalReference) (Service_ExternalReferences s'), true)) by (destruct s'; reflexivity).
    destruct (items_of "Service" _ s "externalReferences" x _ _ _ _ eq_refl eq_refl X S Q) as (k & y & N & Y).
    refine (f_reference sv B (Service_ExternalReferences s') y x _ (nth_in _ _ _ N) Y). apply (service_gates sv b i path s' C).
  Qed.
  Lemma choice_license p lc l x : licenses_clean sv p -> In lc (members p) -> enc (TRef "LicenseChoice") (reify_LicenseChoice lc) l -> sub l "license" x -> source sv B "license" x.
  Proof.
    intros P I X S. destruct (pointed_of "LicenseChoice" _ l "license" x (TRef "License") reify_License (LicenseChoice_License lc) true eq_refl eq_refl X S eq_refl) as [->|(y & L & Y)]; [apply f_null|].
    exact (f_license sv B p lc y x P I L Y).
  Qed.
  Lemma component_licenses c l x : source sv B "component" c -> item c "licenses" l -> sub l "license" x -> source sv B "license" x.
  Proof.
    intros F S L. inversion F as [| | r steps c' ? C X| | | | | | | | | ]; subst; [|destruct (item_null _ _ S)]. rewrite component_struct in X.
    assert (Q : found (fields_of (TRef "Component")) (component_parts c') "licenses" = Some (TPtr (TRef "Licenses"), vptr (vslice reify_LicenseChoice) (Component_Licenses c'), true)) by (destruct c'; reflexivity).
    destruct (named_items_of "Component" _ c "licenses" l _ _ _ _ eq_refl eq_refl X S Q) as (i & y & N & Y).
    refine (choice_license (Component_Licenses c') y l x _ (nth_in _ _ _ N) Y L). apply (component_gates sv b r steps c' C).
  Qed.
  Lemma metadata_licenses m l x : source sv B "metadata" m -> item m "licenses" l -> sub l "license" x -> source sv B "license" x.
  Proof.
    intros F S L. inversion F as [| m' ? M X| | | | | | | | | | ]; subst; [|destruct (item_null _ _ S)].
    destruct (named_items_of "Metadata" _ m "licenses" l (TRef "Licenses") reify_LicenseChoice (Metadata_Licenses m') true eq_refl eq_refl X S eq_refl) as (i & y & N & Y).
    refine (choice_license (Metadata_Licenses m') y l x _ (nth_in _ _ _ N) Y L). destruct (metadata_gates sv b m' M) as (m0 & _ & K & _). apply K.
  Qed.
  Lemma metadata_entities m k x : source sv B "metadata" m -> In k ["manufacture"; "supplier"] -> sub m k x -> source sv B "organizationalEntity" x.
  Proof.
    intros F K S. inversion F as [| m' ? M X| | | | | | | | | | ]; subst; [|destruct (sub_null _ _ S)]. destruct (metadata_gates sv b m' M) as (m0 & _ & (_ & _ & _ & _ & G1 & G2 & _) & _). destruct K as [<-|[<-|[]]].
    - destruct (pointed_of "Metadata" _ m "manufacture" x (TRef "OrganizationalEntity") reify_OrganizationalEntity (Metadata_Manufacture m') true eq_refl eq_refl X S eq_refl) as [->|(e & C & Y)]; [apply f_null|].
      exact (f_entity sv B e x (G1 e C) Y).
    - destruct (pointed_of "Metadata" _ m "supplier" x (TRef "OrganizationalEntity") reify_OrganizationalEntity (Metadata_Supplier m') true eq_refl eq_refl X S eq_refl) as [->|(e & C & Y)]; [apply f_null|].
      exact (f_entity sv B e x (G2 e C) Y).
  Qed.
  Lemma provider_source s x : source sv B "service" s -> sub s "provider" x -> source sv B "organizationalEntity" x.
  Proof.
    intros F S. inversion F as [| | | i path s' ? C X| | | | | | | | ]; subst; [|destruct (sub_null _ _ S)]. rewrite service_struct in X.
    assert (Q : found (fields_of (TRef "Service")) (service_parts s') "provider" = Some (TPtr (TRef "OrganizationalEntity"), vptr reify_OrganizationalEntity (Service_Provider s'), true)) by (destruct s'; reflexivity).
    destruct (pointed_of "Service" _ s "provider" x _ _ _ _ eq_refl eq_refl X S Q) as [->|(e & P & Y)]; [apply f_null|].
    refine (f_entity sv B e x _ Y). apply (service_gates sv b i path s' C), P.
  Qed.
  Theorem site_source n x : site doc n x -> source sv B n x.
  Proof.
    induction 1 as [|x S|x S|m x _ F S|c x _ F S|c p k x _ F S K I|x S|s x _ F S|x S|x S|c x _ F S|x S|n y x N _ F S|n y l x N _ F S L|m k x _ F K S|s x _ F S].
    - exact (f_document sv B doc E).
    - exact (metadata_source x S).
    - exact (listed_source x S).
    - exact (described_source m x F S).
    - exact (nested_source c x F S).
    - exact (pedigree_source c p k x F S K I).
    - exact (service_source x S).
    - exact (inner_source s x F S).
    - exact (composition_source x S).
    - exact (vulnerability_source x S).
    - exact (evidence_source c x F S).
    - exact (dependency_source x S).
    - destruct N as [<-|[<-|[<-|[]]]].
      + inversion F as [? X| | | | | | | | | | | ]; subst; [|destruct (item_null _ _ S)].
        destruct (items_of "BOM" _ y "externalReferences" x (TRef "ExternalReference") reify_ExternalReference (BOM_ExternalReferences B) true eq_refl eq_refl X S eq_refl) as (i & r & N & Y).
        refine (f_reference sv B (BOM_ExternalReferences B) r x _ (nth_in _ _ _ N) Y). apply (sections_removed_convert sv b).
      + exact (component_references y x F S).
      + exact (service_references y x F S).
    - destruct N as [<-|[<-|[]]]; [exact (metadata_licenses y l x F S L)|exact (component_licenses y l x F S L)].
    - exact (metadata_entities m k x F K S).
    - exact (provider_source s x F S).
  Qed.
End Source.

(** ** What is not written for old versions
    The members of the definitions, with the first version for which they are written. *)
Definition gated : list (string * list (string * SpecVersion)) :=
  [ ("", [("compositions", v1_3); ("vulnerabilities", v1_4); ("annotations", v1_5); ("formulation", v1_5); ("declarations", v1_6); ("definitions", v1_6); ("citations", v1_7)]);
    ("metadata", [("licenses", v1_3); ("properties", v1_3); ("lifecycles", v1_5); ("manufacturer", v1_6); ("distributionConstraints", v1_7)]);
    ("component", [("properties", v1_3); ("evidence", v1_3); ("releaseNotes", v1_4); ("modelCard", v1_5); ("data", v1_5); ("swhid", v1_6); ("omniborId", v1_6); ("manufacturer", v1_6);
                   ("authors", v1_6); ("tags", v1_6); ("cryptoProperties", v1_6); ("isExternal", v1_7); ("patentAssertions", v1_7); ("versionRange", v1_7)]);
    ("service", [("properties", v1_3); ("releaseNotes", v1_4); ("trustZone", v1_5); ("patentAssertions", v1_7)]);
    ("compositions", [("bom-ref", v1_5); ("vulnerabilities", v1_5)]);
    ("vulnerability", [("proofOfConcept", v1_5); ("rejected", v1_5); ("workaround", v1_5)]);
    ("componentEvidence", [("identity", v1_5); ("occurrences", v1_5); ("callstack", v1_5)]);
    ("dependency", [("provides", v1_6)]);
    ("externalReference", [("hashes", v1_3); ("properties", v1_7)]);
    ("license", [("bom-ref", v1_5); ("licensing", v1_5); ("properties", v1_5); ("acknowledgement", v1_6)]);
    ("organizationalEntity", [("bom-ref", v1_5); ("address", v1_6)]) ].
Definition fields_at : list (string * list field) :=
  [ ("", fields_BOM); ("metadata", fields_Metadata); ("component", fields_Component); ("service", fields_Service); ("compositions", fields_Composition); ("vulnerability", fields_Vulnerability);
    ("componentEvidence", fields_Evidence); ("dependency", fields_Dependency);
    ("externalReference", fields_ExternalReference); ("license", fields_License); ("organizationalEntity", fields_OrganizationalEntity) ].
(** The first version that has a place for them *)
Definition since (n : string) : SpecVersion :=
  match assoc n [("compositions", v1_3); ("vulnerability", v1_4); ("componentEvidence", v1_3)] with Some v => v | None => v1_0 end.
Definition gates (n : string) : list (string * SpecVersion) := match assoc n gated with Some l => l | None => [] end.
Definition names_at (n : string) : list string := match assoc n fields_at with Some fs => names fs | None => [] end.

Lemma picked_filled fs vs k x t v omit : picked fs vs k x -> distinct (names fs) = true -> found fs vs k = Some (t, v, omit) -> (omit && empty_value v)%bool = false.
Proof. intros P D F. exact (proj1 (picked_found k x t v omit fs vs D P F)). Qed.
(** [P]: what the member comes from; a field that the version does not have is empty. *)
Local Open Scope Z_scope.
Ltac absent sv :=
  unfold older in *;
  repeat match goal with H : sv < _ -> _ |- _ => first [specialize (H ltac:(assumption))|clear H] end;
  repeat match goal with H : _ /\ _ |- _ => destruct H end;
  match goal with O : (true && empty_value _)%bool = false, H : ?p = _ |- False => rewrite H in O; discriminate O end.
Ltac gone P Q sv :=
  repeat (destruct Q as [[= <- <-]|Q]; [let O := fresh "O" in pose proof (picked_filled _ _ _ _ _ _ true P eq_refl eq_refl) as O; absent sv|]); contradiction Q.
Lemma document_gone sv b x k y v : enc (TRef "BOM") (reify_BOM (convert sv b)) x -> sub x k y -> In (k, v) (gates "") -> sv < v -> False.
Proof.
  intros E S Q L. pose proof (sections_removed_convert sv b) as C. revert E C. generalize (convert sv b). intros B E C. destruct C as (_ & _ & C3 & C4 & C5 & C6 & C7 & _).
  pose proof (enc_member (TRef "BOM") _ x k y eq_refl E S) as P. cbn [gates gated assoc String.eqb] in Q. gone P Q sv.
Qed.
Lemma metadata_gone sv m x k y v : metadata_clean sv m -> enc (TRef "Metadata") (reify_Metadata m) x -> sub x k y -> In (k, v) (gates "metadata") -> sv < v -> False.
Proof.
  intros C E S Q L. destruct C as (C3 & C5 & C6 & C7 & _). pose proof (enc_member (TRef "Metadata") _ x k y eq_refl E S) as P. cbn [gates gated assoc String.eqb Ascii.eqb Bool.eqb] in Q. gone P Q sv.
Qed.
Lemma component_gone sv c x k y v : component_clean sv c -> enc (TRef "Component") (reify_Component c) x -> sub x k y -> In (k, v) (gates "component") -> sv < v -> False.
Proof.
  intros C E S Q L. destruct C as (_ & _ & C3 & C4 & C5 & C6 & C7 & _). rewrite component_struct in E. pose proof (enc_member (TRef "Component") _ x k y eq_refl E S) as P. destruct c. cbn [gates gated assoc String.eqb Ascii.eqb Bool.eqb] in Q.
  unfold component_parts in P. cbn in C3, C4, C5, C6, C7. gone P Q sv.
Qed.
Lemma service_gone sv s x k y v : service_clean sv s -> enc (TRef "Service") (reify_Service s) x -> sub x k y -> In (k, v) (gates "service") -> sv < v -> False.
Proof.
  intros C E S Q L. destruct C as (C3 & C4 & C5 & _ & C7 & _). rewrite service_struct in E. pose proof (enc_member (TRef "Service") _ x k y eq_refl E S) as P. destruct s. cbn [gates gated assoc String.eqb Ascii.eqb Bool.eqb] in Q.
  unfold service_parts in P. cbn in C3, C4, C5, C7. gone P Q sv.
Qed.
Lemma dependency_gone sv d x k y v : older sv v1_6 (Dependency_Provides d = None) -> enc (TRef "Dependency") (reify_Dependency d) x -> sub x k y -> In (k, v) (gates "dependency") -> sv < v -> False.
Proof.
  intros C E S Q L. pose proof (enc_member (TRef "Dependency") _ x k y eq_refl E S) as P. cbn [gates gated assoc String.eqb Ascii.eqb Bool.eqb] in Q. gone P Q sv.
Qed.
Lemma reference_gone sv p r x k y v : extrefs_clean sv p -> In r (members p) -> enc (TRef "ExternalReference") (reify_ExternalReference r) x -> sub x k y -> In (k, v) (gates "externalReference") -> sv < v -> False.
Proof.
  intros C I E S Q L. destruct (C r I) as (C3 & C7). pose proof (enc_member (TRef "ExternalReference") _ x k y eq_refl E S) as P. cbn [gates gated assoc String.eqb Ascii.eqb Bool.eqb] in Q. gone P Q sv.
Qed.
Lemma license_gone sv p lc l x k y v : licenses_clean sv p -> In lc (members p) -> LicenseChoice_License lc = Some l -> enc (TRef "License") (reify_License l) x -> sub x k y -> In (k, v) (gates "license") -> sv < v -> False.
Proof.
  intros C I Hl E S Q L. destruct (C lc I) as (_ & _ & C'). destruct (C' l Hl) as (_ & C5 & C6). pose proof (enc_license _ x k y E S) as P. clear C C' Hl. cbn [gates gated assoc String.eqb Ascii.eqb Bool.eqb] in Q. gone P Q sv.
Qed.
Lemma entity_gone sv e x k y v : entity_clean sv e -> enc (TRef "OrganizationalEntity") (reify_OrganizationalEntity e) x -> sub x k y -> In (k, v) (gates "organizationalEntity") -> sv < v -> False.
Proof.
  intros C E S Q L. destruct C as (C5 & C6). pose proof (enc_member (TRef "OrganizationalEntity") _ x k y eq_refl E S) as P. cbn [gates gated assoc String.eqb Ascii.eqb Bool.eqb] in Q. gone P Q sv.
Qed.
Lemma composition_gone sv c x k y v : older sv v1_5 (Composition_BOMRef c = "" /\ Composition_Vulnerabilities c = None) -> enc (TRef "Composition") (reify_Composition c) x -> sub x k y -> In (k, v) (gates "compositions") -> sv < v -> False.
Proof.
  intros C E S Q L. pose proof (enc_member (TRef "Composition") _ x k y eq_refl E S) as P. cbn [gates gated assoc String.eqb Ascii.eqb Bool.eqb] in Q. gone P Q sv.
Qed.
Lemma vulnerability_gone sv w x k y v : older sv v1_5 (Vulnerability_ProofOfConcept w = None /\ Vulnerability_Rejected w = "" /\ Vulnerability_Workaround w = "") -> enc (TRef "Vulnerability") (reify_Vulnerability w) x -> sub x k y -> In (k, v) (gates "vulnerability") -> sv < v -> False.
Proof.
  intros C E S Q L. pose proof (enc_member (TRef "Vulnerability") _ x k y eq_refl E S) as P. cbn [gates gated assoc String.eqb Ascii.eqb Bool.eqb] in Q. gone P Q sv.
Qed.
Lemma evidence_gone sv e x k y v : evidence_clean sv e -> enc (TRef "Evidence") (reify_Evidence e) x -> sub x k y -> In (k, v) (gates "componentEvidence") -> sv < v -> False.
Proof.
  intros C E S Q L. destruct C as (C5 & _). pose proof (enc_member (TRef "Evidence") _ x k y eq_refl E S) as P. cbn [gates gated assoc String.eqb Ascii.eqb Bool.eqb] in Q. gone P Q sv.
Qed.

Theorem site_members sv b doc n x k y : enc (TRef "BOM") (reify_BOM (convert sv b)) doc -> site doc n x -> sub x k y ->
  (forall v, In (k, v) (gates n) -> sv < v -> False) /\ In k (names_at n) /\ (v1_0 <= sv -> since n <= sv).
Proof.
  intros E S M. apply (site_source sv b doc E) in S. destruct S as [x X|m x H X|r steps c x H X|i path s x H X|d x H X|c x L H X|w x L H X|e x L H X|p r x H I X|p lc l x H I Hl X|e x H X|n];
    [| | | | | | | | | | |destruct (sub_null _ _ M)]; (split; [|split; [|cbn [since assoc String.eqb Ascii.eqb Bool.eqb]; first [intros _; assumption|intros Z; exact Z]]]).
  - intros v Q. exact (document_gone sv b x k y v X M Q).
  - exact (picked_name _ _ _ _ (enc_member (TRef "BOM") _ x k y eq_refl X M)).
  - destruct (metadata_gates sv b m H) as (_ & _ & K & _). intros v Q. exact (metadata_gone sv m x k y v K X M Q).
  - exact (picked_name _ _ _ _ (enc_member (TRef "Metadata") _ x k y eq_refl X M)).
  - intros v Q. exact (component_gone sv c x k y v (component_gates sv b r steps c H) X M Q).
  - rewrite component_struct in X. exact (picked_name _ _ _ _ (enc_member (TRef "Component") _ x k y eq_refl X M)).
  - intros v Q. exact (service_gone sv s x k y v (service_gates sv b i path s H) X M Q).
  - rewrite service_struct in X. exact (picked_name _ _ _ _ (enc_member (TRef "Service") _ x k y eq_refl X M)).
  - intros v Q. apply (dependency_gone sv d x k y v); try assumption. intros K. destruct (sections_removed_convert sv b) as (_ & _ & _ & _ & _ & C6 & _). exact (proj2 (proj2 (C6 K)) d H).
  - exact (picked_name _ _ _ _ (enc_member (TRef "Dependency") _ x k y eq_refl X M)).
  - intros v Q. exact (composition_gone sv c x k y v H X M Q).
  - exact (picked_name _ _ _ _ (enc_member (TRef "Composition") _ x k y eq_refl X M)).
  - intros v Q. exact (vulnerability_gone sv w x k y v H X M Q).
  - exact (picked_name _ _ _ _ (enc_member (TRef "Vulnerability") _ x k y eq_refl X M)).
  - intros v Q. exact (evidence_gone sv e x k y v H X M Q).
  - exact (picked_name _ _ _ _ (enc_member (TRef "Evidence") _ x k y eq_refl X M)).
  - intros v Q. exact (reference_gone sv p r x k y v H I X M Q).
  - exact (picked_name _ _ _ _ (enc_member (TRef "ExternalReference") _ x k y eq_refl X M)).
  - intros v Q. exact (license_gone sv p lc l x k y v H I Hl X M Q).
  - exact (picked_name _ _ _ _ (enc_license _ x k y X M)).
  - intros v Q. exact (entity_gone sv e x k y v H X M Q).
  - exact (picked_name _ _ _ _ (enc_member (TRef "OrganizationalEntity") _ x k y eq_refl X M)).
Qed.
