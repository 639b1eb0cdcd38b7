(** Property theorems for C51: what EncodeVersion writes as JSON has the members that the
    official schema of the version requires. The places of a document are in SiteSpec.v, the
    schemas in Schemas.v, translated from /repo/schema. *)
From Verif Require Import Base Types Univ TypeTable Wt Reify Consts LinkModel Version Numbers Utf8 GobModel JsonModel JsonProofs JsonText JsonIO JsonTextMore JsonGrammar JsonGrammarProofs ConvertModel ConvertSpec ConvertProofs ConvertReach ConvertPropProofs ConvertReachProofs SchemaSpec Schemas JsonBom JsonNulls JsonChoices SiteSpec SiteProofs PropsGrammar PropsSites.
Local Open Scope string_scope.
Local Open Scope Z_scope.

(** The members that the definition [n] of a schema requires *)
Definition required (d : schemas) (n : string) : list string :=
  match assoc n d with Some (Object _ r) => r | _ => [] end.

(** ** Every place is an object *)
Definition is_object (x : json) : Prop := exists ms, x = JObj ms.
Lemma object_null : ~ is_object JNull.
Proof. intros (ms & [=]). Qed.
Lemma struct_object esc fs vs o : enc_struct esc fs vs (encs vs fs) = Ok o -> is_object (erase o).
Proof. intros E. unfold enc_struct in E. apply bind_ok in E as (l & _ & Y). injection Y as <-. cbn [erase]. eexists. reflexivity. Qed.
Lemma enc_object t vs x : marshal_hook t = HNone -> enc t (VStruct vs) x -> is_object x.
Proof. intros H (esc & o & E & ->). rewrite jenc_struct, H in E. exact (struct_object esc _ _ o E). Qed.
Lemma license_object vs x : enc (TRef "License") (VStruct vs) x -> is_object x.
Proof.
  intros (esc & o & E & ->). rewrite jenc_struct in E. change (marshal_hook (TRef "License")) with HLicense in E. change (fields_of (TRef "License")) with fields_License in E. cbv iota in E. apply scanned_same in E.
  destruct vs as [|v0 [|v1 [|v2 vs]]]; cbn [marshal] in E; try discriminate E. destruct (nonempty v1 && nonempty v2)%bool; [discriminate|]. destruct (negb (nonempty v1 || nonempty v2)); [discriminate|]. exact (struct_object true _ _ o E).
Qed.
Lemma component_object c x : enc (TRef "Component") (reify_Component c) x -> is_object x.
Proof. rewrite component_struct. apply enc_object. reflexivity. Qed.
Lemma service_object s x : enc (TRef "Service") (reify_Service s) x -> is_object x.
Proof. rewrite service_struct. apply enc_object. reflexivity. Qed.
(** A pointer that is written is not nil. *)
Lemma pointed_object {A} n vs j k x t (f : A -> val) p : marshal_hook (TRef n) = HNone -> distinct (names (fields_of (TRef n))) = true -> enc (TRef n) (VStruct vs) j -> sub j k x ->
  found (fields_of (TRef n)) vs k = Some (TPtr t, vptr f p, true) -> (forall y, enc t (f y) x -> is_object x) -> is_object x.
Proof.
  intros H D E S F O. destruct (member_of n vs j k x _ _ _ H D E S F) as (Q & M). destruct p as [y|]; [|discriminate Q].
  destruct (enc_ptr (TPtr t) f (Some y) x M) as [->|(z & [= <-] & Z)]; [|exact (O y Z)].
  destruct M as (esc & o & M & X). apply (O y). exists esc, o. split; [exact M|exact X].
Qed.
Section Objects.
  Variables (sv : SpecVersion) (b : BOM) (doc : json).
  Let B := convert sv b.
  Hypothesis E : enc (TRef "BOM") (reify_BOM B) doc.
  Lemma source_object n x : source sv B n x -> x = JNull \/ is_object x.
  Proof.
    destruct 1 as [x X|m x H X|r steps c x H X|i path s x H X|d x H X|c x L H X|w x L H X|e x L H X|p r x H I X|p lc l x H I Hl X|e x H X|n]; [right..|left; reflexivity];
      try (refine (enc_object _ _ x _ X); reflexivity); [exact (component_object c x X)|exact (service_object s x X)|exact (license_object _ x X)].
  Qed.
  Lemma metadata_object x : sub doc "metadata" x -> is_object x.
  Proof. intros S. apply (pointed_object "BOM" _ doc "metadata" x (TRef "Metadata") reify_Metadata (BOM_Metadata B) eq_refl eq_refl E S eq_refl). intros y. apply enc_object. reflexivity. Qed.
  Lemma described_object m x : site doc "metadata" m -> sub m "component" x -> is_object x.
  Proof.
    intros T S. apply (site_source sv b doc E) in T. inversion T as [| m' ? M X| | | | | | | | | | ]; subst; [|destruct (sub_null _ _ S)].
    apply (pointed_object "Metadata" _ m "component" x (TRef "Component") reify_Component (Metadata_Component m') eq_refl eq_refl X S eq_refl). intros y. apply component_object.
  Qed.
  Lemma evidence_object c x : site doc "component" c -> sub c "evidence" x -> is_object x.
  Proof.
    intros T S. apply (site_source sv b doc E) in T. inversion T as [| | r steps c' ? C X| | | | | | | | | ]; subst; [|destruct (sub_null _ _ S)]. rewrite component_struct in X.
    assert (Q : found (fields_of (TRef "Component")) (component_parts c') "evidence" = Some (TPtr (TRef "Evidence"), vptr reify_Evidence (Component_Evidence c'), true)) by (destruct c'; reflexivity).
    apply (pointed_object "Component" _ c "evidence" x _ _ _ eq_refl eq_refl X S Q). intros y. apply enc_object. reflexivity.
  Qed.
  Lemma choice_object lc l x : enc (TRef "LicenseChoice") (reify_LicenseChoice lc) l -> sub l "license" x -> is_object x.
  Proof. intros X S. apply (pointed_object "LicenseChoice" _ l "license" x (TRef "License") reify_License (LicenseChoice_License lc) eq_refl eq_refl X S eq_refl). intros y. apply license_object. Qed.
  Lemma license_site n y l x : In n ["metadata"; "component"] -> site doc n y -> item y "licenses" l -> sub l "license" x -> is_object x.
  Proof.
    intros N T S L. apply (site_source sv b doc E) in T. destruct N as [<-|[<-|[]]].
    - inversion T as [| m' ? M X| | | | | | | | | | ]; subst; [|destruct (item_null _ _ S)].
      destruct (named_items_of "Metadata" _ y "licenses" l (TRef "Licenses") reify_LicenseChoice (Metadata_Licenses m') true eq_refl eq_refl X S eq_refl) as (i & lc & _ & Y). exact (choice_object lc l x Y L).
    - inversion T as [| | r steps c' ? C X| | | | | | | | | ]; subst; [|destruct (item_null _ _ S)]. rewrite component_struct in X.
      assert (Q : found (fields_of (TRef "Component")) (component_parts c') "licenses" = Some (TPtr (TRef "Licenses"), vptr (vslice reify_LicenseChoice) (Component_Licenses c'), true)) by (destruct c'; reflexivity).
      destruct (named_items_of "Component" _ y "licenses" l _ _ _ _ eq_refl eq_refl X S Q) as (i & lc & _ & Y). exact (choice_object lc l x Y L).
  Qed.
  Lemma entity_object m k x : site doc "metadata" m -> In k ["manufacture"; "supplier"] -> sub m k x -> is_object x.
  Proof.
    intros T K S. apply (site_source sv b doc E) in T. inversion T as [| m' ? M X| | | | | | | | | | ]; subst; [|destruct (sub_null _ _ S)]. destruct K as [<-|[<-|[]]].
    - apply (pointed_object "Metadata" _ m "manufacture" x (TRef "OrganizationalEntity") reify_OrganizationalEntity (Metadata_Manufacture m') eq_refl eq_refl X S eq_refl). intros y. apply enc_object. reflexivity.
    - apply (pointed_object "Metadata" _ m "supplier" x (TRef "OrganizationalEntity") reify_OrganizationalEntity (Metadata_Supplier m') eq_refl eq_refl X S eq_refl). intros y. apply enc_object. reflexivity.
  Qed.
  Lemma provider_object s x : site doc "service" s -> sub s "provider" x -> is_object x.
  Proof.
    intros T S. apply (site_source sv b doc E) in T. inversion T as [| | | i path s' ? C X| | | | | | | | ]; subst; [|destruct (sub_null _ _ S)]. rewrite service_struct in X.
    assert (Q : found (fields_of (TRef "Service")) (service_parts s') "provider" = Some (TPtr (TRef "OrganizationalEntity"), vptr reify_OrganizationalEntity (Service_Provider s'), true)) by (destruct s'; reflexivity).
    apply (pointed_object "Service" _ s "provider" x _ _ _ eq_refl eq_refl X S Q). intros y. apply enc_object. reflexivity.
  Qed.
  (** Items of the lists of a place *)
  Lemma listed_object k t x {A} (f : A -> val) p : found fields_BOM (match reify_BOM B with VStruct vs => vs | _ => [] end) k = Some (TPtr (TSlice t), vptr (vslice f) p, true) -> (forall y, enc t (f y) x -> is_object x) -> item doc k x -> is_object x.
  Proof. intros Q O S. destruct (items_of "BOM" _ doc k x t f p true eq_refl eq_refl E S Q) as (i & y & _ & Y). exact (O y Y). Qed.
  Lemma within_component k t x c {A} (f : A -> val) (p : Component -> _) : (forall c', found fields_Component (component_parts c') k = Some (TPtr (TSlice t), vptr (vslice f) (p c'), true)) -> (forall y, enc t (f y) x -> is_object x) -> site doc "component" c -> item c k x -> is_object x.
  Proof.
    intros Q O T S. apply (site_source sv b doc E) in T. inversion T as [| | r steps c' ? C X| | | | | | | | | ]; subst; [|destruct (item_null _ _ S)]. rewrite component_struct in X.
    destruct (items_of "Component" _ c k x t f (p c') true eq_refl eq_refl X S (Q c')) as (i & y & _ & Y). exact (O y Y).
  Qed.
  Lemma within_service k t x s {A} (f : A -> val) (p : Service -> _) : (forall s', found fields_Service (service_parts s') k = Some (TPtr (TSlice t), vptr (vslice f) (p s'), true)) -> (forall y, enc t (f y) x -> is_object x) -> site doc "service" s -> item s k x -> is_object x.
  Proof.
    intros Q O T S. apply (site_source sv b doc E) in T. inversion T as [| | | i path s' ? C X| | | | | | | | ]; subst; [|destruct (item_null _ _ S)]. rewrite service_struct in X.
    destruct (items_of "Service" _ s k x t f (p s') true eq_refl eq_refl X S (Q s')) as (j & y & _ & Y). exact (O y Y).
  Qed.
  Lemma pedigree_object c p k x : site doc "component" c -> sub c "pedigree" p -> In k ["ancestors"; "descendants"; "variants"] -> item p k x -> is_object x.
  Proof.
    intros T S K I. apply (site_source sv b doc E) in T. inversion T as [| | r steps c' ? C X| | | | | | | | | ]; subst; [|destruct (sub_null _ _ S)]. rewrite component_struct in X.
    assert (Q : found (fields_of (TRef "Component")) (component_parts c') "pedigree" = Some (TPtr (TRef "Pedigree"), vptr (reify_Pedigree_ reify_Component) (Component_Pedigree c'), true)) by (destruct c'; reflexivity).
    destruct (pointed_of "Component" _ c "pedigree" p _ _ _ _ eq_refl eq_refl X S Q) as [->|(q & P & Y)]; [destruct (item_null _ _ I)|]. destruct K as [<-|[<-|[<-|[]]]].
    - destruct (items_of "Pedigree" _ p "ancestors" x (TRef "Component") reify_Component (Pedigree_Ancestors q) true eq_refl eq_refl Y I eq_refl) as (i & y & _ & Z). exact (component_object y x Z).
    - destruct (items_of "Pedigree" _ p "descendants" x (TRef "Component") reify_Component (Pedigree_Descendants q) true eq_refl eq_refl Y I eq_refl) as (i & y & _ & Z). exact (component_object y x Z).
    - destruct (items_of "Pedigree" _ p "variants" x (TRef "Component") reify_Component (Pedigree_Variants q) true eq_refl eq_refl Y I eq_refl) as (i & y & _ & Z). exact (component_object y x Z).
  Qed.
  Lemma site_object n x : site doc n x -> is_object x.
  Proof.
    destruct 1 as [|x S|x S|m x T S|c x T S|c p k x T S K I|x S|s x T S|x S|x S|c x T S|x S|n y x N T S|n y l x N T S L|m k x T K S|s x T S].
    - refine (enc_object (TRef "BOM") _ doc _ E). reflexivity.
    - exact (metadata_object x S).
    - exact (listed_object "components" (TRef "Component") x reify_Component (BOM_Components B) eq_refl (fun y => component_object y x) S).
    - exact (described_object m x T S).
    - refine (within_component "components" (TRef "Component") x c reify_Component Component_Components _ (fun y => component_object y x) T S). intros c'. destruct c'. reflexivity.
    - exact (pedigree_object c p k x T S K I).
    - exact (listed_object "services" (TRef "Service") x reify_Service (BOM_Services B) eq_refl (fun y => service_object y x) S).
    - refine (within_service "services" (TRef "Service") x s reify_Service Service_Services _ (fun y => service_object y x) T S). intros s'. destruct s'. reflexivity.
    - refine (listed_object "compositions" (TRef "Composition") x reify_Composition (BOM_Compositions B) eq_refl _ S). intros y. apply enc_object. reflexivity.
    - refine (listed_object "vulnerabilities" (TRef "Vulnerability") x reify_Vulnerability (BOM_Vulnerabilities B) eq_refl _ S). intros y. apply enc_object. reflexivity.
    - exact (evidence_object c x T S).
    - refine (listed_object "dependencies" (TRef "Dependency") x reify_Dependency (BOM_Dependencies B) eq_refl _ S). intros y. apply enc_object. reflexivity.
    - assert (O : forall y, enc (TRef "ExternalReference") (reify_ExternalReference y) x -> is_object x) by (intros z; apply enc_object; reflexivity). destruct N as [<-|[<-|[<-|[]]]].
      + apply (site_source sv b doc E) in T. inversion T as [? X| | | | | | | | | | | ]; subst; [|destruct (item_null _ _ S)].
        destruct (items_of "BOM" _ y "externalReferences" x (TRef "ExternalReference") reify_ExternalReference (BOM_ExternalReferences B) true eq_refl eq_refl X S eq_refl) as (i & z & _ & Z). exact (O z Z).
      + refine (within_component "externalReferences" (TRef "ExternalReference") x y reify_ExternalReference Component_ExternalReferences _ O T S). intros c'. destruct c'. reflexivity.
      + refine (within_service "externalReferences" (TRef "ExternalReference") x y reify_ExternalReference Service_ExternalReferences _ O T S). intros s'. destruct s'. reflexivity.
    - exact (license_site n y l x N T S L).
    - exact (entity_object m k x T K S).
    - exact (provider_object s x T S).
  Qed.
End Objects.

(** ** What is always written *)
Fixpoint always (fs : list field) : list string :=
  match fs with
  | [] => []
  | f :: fs' => match json_info f with Some (n, false) => n :: always fs' | _ => always fs' end
  end.
Lemma members_always esc k : forall fs vs ms, length fs = length vs -> enc_members esc fs vs (encs vs fs) = Ok ms -> In k (always fs) -> In k (map fst ms).
Proof.
  induction fs as [|f fs IH]; intros [|v vs] ms N E I; try discriminate N; [destruct I|]. cbn [encs enc_members always length] in *. injection N as N. destruct (json_info f) as [[n omit]|]; [|exact (IH vs ms N E I)]. destruct omit.
  - cbn [andb] in E. destruct (empty_value v); [exact (IH vs ms N E I)|]. apply bind_ok in E as (o & _ & E). apply bind_ok in E as (ms' & Em & E). injection E as <-. right. exact (IH vs ms' N Em I).
  - cbn [andb] in E. apply bind_ok in E as (o & _ & E). apply bind_ok in E as (ms' & Em & E). injection E as <-. destruct I as [<-|I]; [left; reflexivity|right; exact (IH vs ms' N Em I)].
Qed.
Lemma enc_always t vs ms k : marshal_hook t = HNone -> length (fields_of t) = length vs -> enc t (VStruct vs) (JObj ms) -> In k (always (fields_of t)) -> In k (map fst ms).
Proof.
  intros H N (esc & o & E & X) I. rewrite jenc_struct, H in E. unfold enc_struct in E. apply bind_ok in E as (l & E & Y). injection Y as <-. cbn [erase] in X. injection X as ->.
  rewrite map_map. cbn [fst]. exact (members_always esc k _ vs l N E I).
Qed.
Definition always_at (n : string) : list string := match assoc n fields_at with Some fs => if String.eqb n "license" then [] else always fs | None => [] end.
Lemma always_BOM : always_at "" = always (fields_of (TRef "BOM")).
Proof. vm_compute. reflexivity. Qed.
Lemma always_Metadata : always_at "metadata" = always (fields_of (TRef "Metadata")).
Proof. vm_compute. reflexivity. Qed.
Lemma always_Component : always_at "component" = always (fields_of (TRef "Component")).
Proof. vm_compute. reflexivity. Qed.
Lemma always_Service : always_at "service" = always (fields_of (TRef "Service")).
Proof. vm_compute. reflexivity. Qed.
Lemma always_Dependency : always_at "dependency" = always (fields_of (TRef "Dependency")).
Proof. vm_compute. reflexivity. Qed.
Lemma always_Composition : always_at "compositions" = always (fields_of (TRef "Composition")).
Proof. vm_compute. reflexivity. Qed.
Lemma always_Vulnerability : always_at "vulnerability" = always (fields_of (TRef "Vulnerability")).
Proof. vm_compute. reflexivity. Qed.
Lemma always_Evidence : always_at "componentEvidence" = always (fields_of (TRef "Evidence")).
Proof. vm_compute. reflexivity. Qed.
Lemma always_ExternalReference : always_at "externalReference" = always (fields_of (TRef "ExternalReference")).
Proof. vm_compute. reflexivity. Qed.
Lemma always_OrganizationalEntity : always_at "organizationalEntity" = always (fields_of (TRef "OrganizationalEntity")).
Proof. vm_compute. reflexivity. Qed.
Lemma source_always sv B n ms k : source sv B n (JObj ms) -> In k (always_at n) -> In k (map fst ms).
Proof.
  intros S K. remember (JObj ms) as x eqn:Q. destruct S as [x X|m x H X|r steps c x H X|i path s x H X|d x H X|c x L H X|w x L H X|e x L H X|p r x H I X|p lc l x H I Hl X|e x H X|n]; subst; [| | | | | | | | |destruct K| |discriminate Q].
  - rewrite always_BOM in K. refine (enc_always (TRef "BOM") _ ms k eq_refl _ X K). reflexivity.
  - rewrite always_Metadata in K. refine (enc_always (TRef "Metadata") _ ms k eq_refl _ X K). reflexivity.
  - rewrite component_struct in X. rewrite always_Component in K. refine (enc_always (TRef "Component") _ ms k eq_refl _ X K). destruct c. reflexivity.
  - rewrite service_struct in X. rewrite always_Service in K. refine (enc_always (TRef "Service") _ ms k eq_refl _ X K). destruct s. reflexivity.
  - rewrite always_Dependency in K. refine (enc_always (TRef "Dependency") _ ms k eq_refl _ X K). reflexivity.
  - rewrite always_Composition in K. refine (enc_always (TRef "Composition") _ ms k eq_refl _ X K). reflexivity.
  - rewrite always_Vulnerability in K. refine (enc_always (TRef "Vulnerability") _ ms k eq_refl _ X K). reflexivity.
  - rewrite always_Evidence in K. refine (enc_always (TRef "Evidence") _ ms k eq_refl _ X K). reflexivity.
  - rewrite always_ExternalReference in K. refine (enc_always (TRef "ExternalReference") _ ms k eq_refl _ X K). reflexivity.
  - rewrite always_OrganizationalEntity in K. refine (enc_always (TRef "OrganizationalEntity") _ ms k eq_refl _ X K). reflexivity.
Qed.
Lemma source_named sv B n ms : source sv B n (JObj ms) -> In n (map fst fields_at).
Proof. intros S. remember (JObj ms) as x eqn:Q. destruct S; subst; try discriminate Q; apply mem_in; reflexivity. Qed.

(** The version of a component is written for versions below 1.4, whose schemas require it. *)
Lemma version_filled sv b r steps c : component_at (convert sv b) r steps = Some c -> sv < v1_4 -> String.eqb (Component_Version c) "" = false.
Proof.
  intros C L. apply component_at_image in C as (_ & c0 & _ & ->). rewrite component_in_fix. cf. apply Z.ltb_lt in L. rewrite L. cbn [andb]. destruct (String.eqb (Component_Version c0) "") eqn:Q; [reflexivity|exact Q].
Qed.
Lemma members_filled esc k t v omit : forall fs vs ms, enc_members esc fs vs (encs vs fs) = Ok ms -> found fs vs k = Some (t, v, omit) -> empty_value v = false -> In k (map fst ms).
Proof.
  induction fs as [|f fs IH]; intros [|w vs] ms E F N; try discriminate F. cbn [encs enc_members found] in *. destruct (json_info f) as [[n o]|]; [|exact (IH vs ms E F N)]. destruct (String.eqb n k) eqn:Q.
  - apply String.eqb_eq in Q. injection F as <- <- <-. subst n. rewrite N, andb_false_r in E. apply bind_ok in E as (x & _ & E). apply bind_ok in E as (ms' & _ & E). injection E as <-. left. reflexivity.
  - destruct (o && empty_value w)%bool; [exact (IH vs ms E F N)|]. apply bind_ok in E as (x & _ & E). apply bind_ok in E as (ms' & Em & E). injection E as <-. right. exact (IH vs ms' Em F N).
Qed.
Lemma enc_filled t vs ms k u v omit : marshal_hook t = HNone -> enc t (VStruct vs) (JObj ms) -> found (fields_of t) vs k = Some (u, v, omit) -> empty_value v = false -> In k (map fst ms).
Proof.
  intros H (esc & o & E & X) F N. rewrite jenc_struct, H in E. unfold enc_struct in E. apply bind_ok in E as (l & E & Y). injection Y as <-. cbn [erase] in X. injection X as ->.
  rewrite map_map. cbn [fst]. exact (members_filled esc k u v omit _ vs l E F N).
Qed.
Lemma source_version sv b ms : source sv (convert sv b) "component" (JObj ms) -> sv < v1_4 -> In "version" (map fst ms).
Proof.
  intros S L. inversion S as [| | r steps c ? C X| | | | | | | | | ]; subst. pose proof (version_filled sv b r steps c C L) as N. rewrite component_struct in X.
  assert (Q : found (fields_of (TRef "Component")) (component_parts c) "version" = Some (TStr, VStr (Component_Version c), true)) by (destruct c; reflexivity).
  refine (enc_filled (TRef "Component") _ ms "version" _ _ _ eq_refl X Q _). cbn [empty_value]. destruct (Component_Version c); [discriminate N|reflexivity].
Qed.
Lemma all_needed : forallb (fun m => forallb (fun n => forallb (fun k => mem k (always_at n) || (String.eqb n "component" && String.eqb k "version" && (fst m <? v1_4))) (required (snd m) n)) (map fst fields_at)) versions = true.
Proof. vm_compute. reflexivity. Qed.

(** Whatever the BOM is, and whatever version from 1.2 on it is encoded for: at all places of
    SiteSpec.v there is an object, with all members that the schema of the version requires
    there. Missing from the full property: other places. *)
Theorem C51_json_required_partial : forall sv d b esc o n x, In (sv, d) versions -> json_encode_version esc sv b = Ok o -> site (erase o) n x ->
  exists ms, x = JObj ms /\ forall k, In k (required d n) -> In k (map fst ms).
Proof.
  intros sv d b esc o n x V E S. destruct (version_written esc sv b o E) as (c & X). destruct (site_object sv c (erase o) X n x S) as (ms & ->). exists ms. split; [reflexivity|]. intros k K.
  apply (site_source sv c (erase o) X) in S. pose proof all_needed as A. rewrite forallb_forall in A. specialize (A _ V). cbn [fst snd] in A. rewrite forallb_forall in A. specialize (A _ (source_named _ _ _ _ S)). cbv beta in A. rewrite forallb_forall in A. specialize (A _ K).
  apply orb_prop in A as [A|A]; [apply mem_in in A; exact (source_always _ _ _ _ _ S A)|]. apply andb_prop in A as (A & L). apply andb_prop in A as (N & M). apply String.eqb_eq in N, M. apply Z.ltb_lt in L. subst n k. exact (source_version sv c ms S L).
Qed.
(** The same for the texts that are written *)
Theorem C51_json_texts_partial : forall sv d b pretty esc t, In (sv, d) versions -> json_encode_version_text pretty esc sv b = Ok t ->
  exists j, document t j /\ forall n x, site j n x -> exists ms, x = JObj ms /\ forall k, In k (required d n) -> In k (map fst ms).
Proof.
  intros sv d b pretty esc t V E. destruct (text_copied pretty esc sv b t E) as (c & C). rewrite (version_text_eq pretty esc sv b c C) in E.
  apply C40_json_written in E as (o & Eo & D). exists (erase o). split; [exact D|]. intros n x. rewrite <- (encode_version_eq esc sv b c C) in Eo. exact (C51_json_required_partial sv d b esc o n x V Eo).
Qed.
(** The hypotheses are met, with a component whose type and name are empty in the BOM. *)
Definition empty_doc : json :=
  JObj [("specVersion", JStr "1.7"); ("components", JArr [JObj []]); ("services", JArr [JObj []]); ("dependencies", JArr [JObj []])].
Example C51_json_nonvacuous : exists b o c s e, bom_of_json empty_doc zero_BOM = Ok b /\ json_encode_version true SpecVersion1_4 b = Ok o /\
  site (erase o) "component" c /\ get "type" c = Some (JStr "application") /\ get "name" c = Some (JStr "") /\ required schema_1_4 "component" = ["type"; "name"] /\
  site (erase o) "service" s /\ get "name" s = Some (JStr "") /\ required schema_1_4 "service" = ["name"] /\
  site (erase o) "dependency" e /\ get "ref" e = Some (JStr "") /\ required schema_1_4 "dependency" = ["ref"].
Proof.
  do 5 eexists. split; [vm_compute; reflexivity|]. split; [vm_compute; reflexivity|]. split; [apply s_component, first_item; vm_compute; reflexivity|]. split; [vm_compute; reflexivity|]. split; [vm_compute; reflexivity|]. split; [vm_compute; reflexivity|].
  split; [apply s_service, first_item; vm_compute; reflexivity|]. split; [vm_compute; reflexivity|]. split; [vm_compute; reflexivity|]. split; [apply s_dependency, first_item; vm_compute; reflexivity|]. split; vm_compute; reflexivity.
Qed.

(** Within components: hashes, properties and the SWID tag have what the schema requires, too. *)
Definition parts : list (string * string) := [("hashes", "hash"); ("properties", "property")].
Lemma all_parts : forallb (fun m => forallb (fun k => mem k (always fields_Hash)) (required (snd m) "hash") && forallb (fun k => mem k (always fields_Property)) (required (snd m) "property") && forallb (fun k => mem k (always fields_SWID)) (required (snd m) "swid")) versions = true.
Proof. vm_compute. reflexivity. Qed.
Lemma parts_needed sv d : In (sv, d) versions -> (forall k, In k (required d "hash") -> In k (always fields_Hash)) /\ (forall k, In k (required d "property") -> In k (always fields_Property)) /\ (forall k, In k (required d "swid") -> In k (always fields_SWID)).
Proof.
  intros V. pose proof all_parts as A. rewrite forallb_forall in A. specialize (A _ V). cbn [snd] in A. apply andb_prop in A as (A & A3). apply andb_prop in A as (A1 & A2). rewrite forallb_forall in A1, A2, A3.
  split; [|split]; intros k K; apply mem_in; [exact (A1 k K)|exact (A2 k K)|exact (A3 k K)].
Qed.
Lemma part_needed t fs vs x (need : list string) : fields_of t = fs -> marshal_hook t = HNone -> length fs = length vs -> enc t (VStruct vs) x -> (forall k, In k need -> In k (always fs)) -> exists ms, x = JObj ms /\ forall k, In k need -> In k (map fst ms).
Proof.
  intros F H N E A. subst fs. destruct (enc_object t vs x H E) as (ms & ->). exists ms. split; [reflexivity|]. intros k K. exact (enc_always t vs ms k H N E (A k K)).
Qed.
Theorem C51_json_parts_partial : forall sv d b esc o c, In (sv, d) versions -> json_encode_version esc sv b = Ok o -> site (erase o) "component" c ->
  (forall l n x, In (l, n) parts -> item c l x -> exists ms, x = JObj ms /\ forall k, In k (required d n) -> In k (map fst ms)) /\
  (forall x, sub c "swid" x -> exists ms, x = JObj ms /\ forall k, In k (required d "swid") -> In k (map fst ms)).
Proof.
  intros sv d b esc o c V E S. destruct (version_written esc sv b o E) as (B & X). destruct (parts_needed sv d V) as (N1 & N2 & N3).
  apply (site_source sv B (erase o) X) in S. inversion S as [| | r steps c' ? C Y| | | | | | | | | ]; subst; [|split; [intros l n x _ I; destruct (item_null _ _ I)|intros x I; destruct (sub_null _ _ I)]]. rewrite component_struct in Y. split.
  - intros l n x P I. destruct P as [[= <- <-]|[[= <- <-]|[]]].
    + assert (Q : found (fields_of (TRef "Component")) (component_parts c') "hashes" = Some (TPtr (TSlice (TRef "Hash")), vptr (vslice reify_Hash) (Component_Hashes c'), true)) by (destruct c'; reflexivity).
      destruct (items_of "Component" _ c "hashes" x _ _ _ _ eq_refl eq_refl Y I Q) as (i & z & _ & Z). exact (part_needed (TRef "Hash") fields_Hash [VStr (Hash_Algorithm z); VStr (Hash_Value z)] x _ eq_refl eq_refl eq_refl Z N1).
    + assert (Q : found (fields_of (TRef "Component")) (component_parts c') "properties" = Some (TPtr (TSlice (TRef "Property")), vptr (vslice reify_Property) (Component_Properties c'), true)) by (destruct c'; reflexivity).
      destruct (items_of "Component" _ c "properties" x _ _ _ _ eq_refl eq_refl Y I Q) as (i & z & _ & Z). exact (part_needed (TRef "Property") fields_Property [VStr (Property_Name z); VStr (Property_Value z)] x _ eq_refl eq_refl eq_refl Z N2).
  - intros x I. assert (Q : found (fields_of (TRef "Component")) (component_parts c') "swid" = Some (TPtr (TRef "SWID"), vptr reify_SWID (Component_SWID c'), true)) by (destruct c'; reflexivity).
    destruct (pointed_object "Component" _ c "swid" x _ _ _ eq_refl eq_refl Y I Q) as (ms & ->); [intros y; apply enc_object; reflexivity|].
    destruct (pointed_of "Component" _ c "swid" _ _ _ _ _ eq_refl eq_refl Y I Q) as [[=]|(z & _ & Z)].
    refine (part_needed (TRef "SWID") fields_SWID _ (JObj ms) _ eq_refl eq_refl _ Z N3). reflexivity.
Qed.

Definition parted : json :=
  JObj [("specVersion", JStr "1.7"); ("components", JArr [JObj [("hashes", JArr [JObj [("alg", JStr "MD5")]]); ("properties", JArr [JObj []]); ("swid", JObj [])]])].
Example C51_json_parts_nonvacuous : exists b o c h p s, bom_of_json parted zero_BOM = Ok b /\ json_encode_version true SpecVersion1_4 b = Ok o /\ site (erase o) "component" c /\
  item c "hashes" h /\ get "content" h = Some (JStr "") /\ required schema_1_4 "hash" = ["alg"; "content"] /\ item c "properties" p /\ get "name" p = Some (JStr "") /\
  sub c "swid" s /\ get "tagId" s = Some (JStr "") /\ required schema_1_4 "swid" = ["tagId"; "name"].
Proof.
  do 6 eexists. split; [vm_compute; reflexivity|]. split; [vm_compute; reflexivity|]. split; [apply s_component, first_item; vm_compute; reflexivity|]. split; [apply first_item; vm_compute; reflexivity|]. split; [vm_compute; reflexivity|]. split; [vm_compute; reflexivity|].
  split; [apply first_item; vm_compute; reflexivity|]. split; [vm_compute; reflexivity|]. split; [apply get_sub; vm_compute; reflexivity|]. split; vm_compute; reflexivity.
Qed.

(** It does not hold at every other place: of an annotation, nothing that is empty is written. *)
Definition silent : json := JObj [("specVersion", JStr "1.7"); ("annotations", JArr [JObj []])].
Theorem C51_json_other_places_refuted : exists b o ms, bom_of_json silent zero_BOM = Ok b /\ json_encode_version true SpecVersion1_7 b = Ok o /\
  item (erase o) "annotations" (JObj ms) /\ In "text" (required schema_1_7 "annotations") /\ ~ In "text" (map fst ms).
Proof.
  do 3 eexists. split; [vm_compute; reflexivity|]. split; [vm_compute; reflexivity|]. split; [apply first_item; vm_compute; reflexivity|]. split; [apply mem_in; vm_compute; reflexivity|]. intros [].
Qed.

Definition needed_theorems := (C51_json_required_partial, C51_json_texts_partial, C51_json_parts_partial, C51_json_other_places_refuted).
Print Assumptions needed_theorems.
