(** Components and services of the converted BOM, path by path. *)
From Verif Require Import Base Types TypesFacts Consts Version ConvertModel ConvertSpec ConvertProofs ConvertReach.
From Coq Require Import Lia.
Local Open Scope string_scope.
Local Open Scope Z_scope.

Lemma since_old {A} v (z : A) sv x : sv < v -> since v z sv x = z.
Proof. intros H. unfold since. destruct (Z.leb_spec v sv); [lia|reflexivity]. Qed.

Lemma since_new {A} v (z : A) sv x : v <= sv -> since v z sv x = x.
Proof. intros H. unfold since. destruct (Z.leb_spec v sv); [reflexivity|lia]. Qed.

Lemma ptr_since_old {A} v sv (x : option A) : sv < v -> ptr_since v sv x = None.
Proof. apply since_old. Qed.
Lemma ptr_since_new {A} v sv (x : option A) : v <= sv -> ptr_since v sv x = x.
Proof. apply since_new. Qed.
Lemma str_since_old v sv x : sv < v -> str_since v sv x = "".
Proof. apply since_old. Qed.
Lemma str_since_new v sv x : v <= sv -> str_since v sv x = x.
Proof. apply since_new. Qed.

Lemma ptr_since_some {A} v sv (x : option A) y : ptr_since v sv x = Some y -> v <= sv /\ x = Some y.
Proof. unfold ptr_since, since. destruct (Z.leb_spec v sv); [auto|discriminate]. Qed.

Lemma members_in_place {A B} (f : A -> B) p : members (in_place f p) = map f (members p).
Proof. destruct p as [[l|]|]; reflexivity. Qed.

Lemma members_since_in {A} v sv (p : option (option (list A))) x : In x (members (ptr_since v sv p)) -> v <= sv /\ In x (members p).
Proof. unfold ptr_since, since. destruct (Z.leb_spec v sv); cbn; [auto|intros []]. Qed.

Lemma members_keep {A} (f : A -> bool) p : members (keep f p) = filter f (members p).
Proof. destruct p as [[l|]|]; cbn; trivial. destruct (filter f l); reflexivity. Qed.

Lemma if_present_some {A B} (f : A -> B) p y : if_present f p = Some y -> exists x, p = Some x /\ y = f x.
Proof. destruct p as [x|]; cbn; [|discriminate]. intros [= <-]. eauto. Qed.

Lemma nth_error_map {A B} (f : A -> B) l i : nth_error (map f l) i = option_map f (nth_error l i).
Proof. revert i; induction l as [|x l IH]; intros [|i]; cbn; auto. Qed.

(** ** Components *)

Lemma child_in sv c s :
  child (component_in sv c) s = if (is_pedigree_step s && (sv <? v1_1))%bool then None else option_map (component_in sv) (child c s).
Proof.
  rewrite component_in_fix.
  destruct s as [i|i|i|i]; cbn [is_pedigree_step andb child];
    [unfold component_in_; cbn [Component_Components]; rewrite members_in_place, nth_error_map; reflexivity|..].
  all: unfold pedigree_list, component_in_; cbn [Component_Pedigree]; unfold ptr_since, since;
    rewrite Z.leb_antisym; destruct (sv <? v1_1); cbn [negb];
    [destruct i; reflexivity|];
    destruct (Component_Pedigree c) as [p|]; cbn [if_present pedigree_in Pedigree_Ancestors Pedigree_Descendants Pedigree_Variants];
    [rewrite members_in_place, nth_error_map; reflexivity | destruct i; reflexivity].
Qed.

Lemma below_in sv c steps :
  (existsb is_pedigree_step steps = true -> v1_1 <= sv) ->
  component_below (component_in sv c) steps = option_map (component_in sv) (component_below c steps).
Proof.
  revert c; induction steps as [|s steps IH]; intros c H; [reflexivity|].
  cbn [component_below existsb] in *. rewrite child_in.
  destruct (is_pedigree_step s) eqn:E; cbn [andb orb] in *.
  - specialize (H eq_refl). destruct (Z.ltb_spec sv v1_1); [lia|].
    destruct (child c s) as [c'|]; cbn [option_map]; [apply IH; intros; assumption|reflexivity].
  - destruct (child c s) as [c'|]; cbn [option_map]; [apply IH; assumption|reflexivity].
Qed.

Lemma below_no_place sv c steps :
  existsb is_pedigree_step steps = true -> sv < v1_1 -> component_below (component_in sv c) steps = None.
Proof.
  revert c; induction steps as [|s steps IH]; intros c H L; [discriminate|].
  cbn [component_below existsb] in *. rewrite child_in.
  destruct (is_pedigree_step s) eqn:E; cbn [andb orb] in *.
  - destruct (Z.ltb_spec sv v1_1); [reflexivity|lia].
  - destruct (child c s) as [c'|]; cbn [option_map]; [apply IH; assumption|reflexivity].
Qed.

Lemma root_in sv b r :
  root_component (convert sv b) r =
  match r with Described => if v1_2 <=? sv then option_map (component_in sv) (root_component b r) else None
             | Listed _ => option_map (component_in sv) (root_component b r) end.
Proof.
  rewrite convert_spec. destruct r as [i|]; unfold root_component, bom_in; cbn [BOM_Components BOM_Metadata].
  - rewrite members_in_place. apply nth_error_map.
  - unfold ptr_since, since. destruct (v1_2 <=? sv); [|reflexivity].
    destruct (BOM_Metadata b) as [m|]; cbn [if_present]; [|reflexivity].
    unfold metadata_in; cbn [Metadata_Component]. destruct (Metadata_Component m); reflexivity.
Qed.

Lemma component_at_convert sv b r steps :
  has_place sv r steps ->
  component_at (convert sv b) r steps = option_map (component_in sv) (component_at b r steps).
Proof.
  intros [H1 H2]. unfold component_at. rewrite root_in.
  assert (E : match r with Described => if v1_2 <=? sv then option_map (component_in sv) (root_component b r) else None
             | Listed _ => option_map (component_in sv) (root_component b r) end = option_map (component_in sv) (root_component b r)).
  { destruct r; [reflexivity|]. specialize (H1 eq_refl). destruct (Z.leb_spec v1_2 sv); [reflexivity|lia]. }
  rewrite E. destruct (root_component b r) as [c|]; cbn [option_map]; [|reflexivity].
  apply below_in, H2.
Qed.

Lemma component_at_no_place sv b r steps :
  ~ has_place sv r steps -> component_at (convert sv b) r steps = None.
Proof.
  intros H. unfold component_at. rewrite root_in.
  destruct (existsb is_pedigree_step steps) eqn:E.
  - destruct (Z.ltb_spec sv v1_1) as [L|L].
    + destruct r as [i|]; [|destruct (v1_2 <=? sv); [|reflexivity]];
        (destruct (root_component b _) as [c|]; cbn [option_map]; [apply below_no_place; assumption|reflexivity]).
    + destruct r as [i|]; [exfalso; apply H; split; [discriminate|auto]|].
      destruct (Z.leb_spec v1_2 sv); [exfalso; apply H; split; auto|reflexivity].
  - destruct r as [i|]; [exfalso; apply H; split; [discriminate|congruence]|].
    destruct (Z.leb_spec v1_2 sv); [exfalso; apply H; split; [auto|congruence]|reflexivity].
Qed.

Lemma has_place_dec sv r steps : has_place sv r steps \/ ~ has_place sv r steps.
Proof.
  unfold has_place.
  destruct r; destruct (existsb is_pedigree_step steps); destruct (Z.le_gt_cases v1_1 sv); destruct (Z.le_gt_cases v1_2 sv);
    first [left; split; intros; (lia || discriminate) | right; intros [A B]; try specialize (A eq_refl); try specialize (B eq_refl); lia].
Qed.

(** Every component of the converted BOM is the conversion of a component of the input. *)
Lemma component_at_image sv b r steps c' :
  component_at (convert sv b) r steps = Some c' ->
  has_place sv r steps /\ exists c, component_at b r steps = Some c /\ c' = component_in sv c.
Proof.
  intros H. destruct (has_place_dec sv r steps) as [P|P].
  - rewrite component_at_convert in H by exact P.
    destruct (component_at b r steps) as [c|]; cbn in H; [|discriminate]. injection H as <-. split; eauto.
  - rewrite component_at_no_place in H by exact P. discriminate.
Qed.

Ltac gate_simpl :=
  repeat match goal with
  | H : ?sv < ?v |- context [ptr_since ?v ?sv _] => rewrite (ptr_since_old v sv) by lia
  | H : ?v <= ?sv |- context [ptr_since ?v ?sv _] => rewrite (ptr_since_new v sv) by lia
  | H : ?sv < ?v |- context [str_since ?v ?sv _] => rewrite (str_since_old v sv) by lia
  | H : ?v <= ?sv |- context [str_since ?v ?sv _] => rewrite (str_since_new v sv) by lia
  end.

Lemma licenses_in_clean sv p : licenses_clean sv (licenses_in sv p).
Proof.
  intros lc Hin. unfold licenses_in in Hin. rewrite members_in_place in Hin.
  apply in_map_iff in Hin as (lc0 & <- & _). unfold license_choice_in, older.
  cbn [LicenseChoice_Expression LicenseChoice_ExpressionDetails LicenseChoice_Licensing LicenseChoice_Properties LicenseChoice_License].
  split; [intros; gate_simpl; reflexivity|]. split; [intros; gate_simpl; auto|].
  intros l Hl. apply if_present_some in Hl as (l0 & _ & ->).
  unfold license_in; cbn [License_Text License_URL License_BOMRef License_Licensing License_Properties License_Acknowledgement].
  repeat split; intros; gate_simpl; reflexivity.
Qed.

Lemma extrefs_in_clean sv p : extrefs_clean sv (in_place (extref_in sv) p).
Proof.
  intros r Hin. rewrite members_in_place in Hin. apply in_map_iff in Hin as (r0 & <- & _).
  unfold extref_in, older; cbn [ExternalReference_Hashes ExternalReference_Properties].
  split; intros; gate_simpl; reflexivity.
Qed.

Lemma ptr_extrefs_in_clean v sv p : extrefs_clean sv (ptr_since v sv (in_place (extref_in sv) p)).
Proof. intros r Hin. apply members_since_in in Hin as [_ Hin]. exact (extrefs_in_clean sv p r Hin). Qed.

Lemma evidence_in_clean sv e : evidence_clean sv (evidence_in sv e).
Proof.
  unfold evidence_clean, older, evidence_in.
  cbn [Evidence_Identity Evidence_Occurrences Evidence_Callstack].
  split.
  - intros. gate_simpl. auto.
  - intros L. destruct (Z.ltb_spec sv v1_6); [|lia]. split.
    + intros ic Hic. apply ptr_since_some in Hic as [_ Hic].
      destruct (Evidence_Identity e) as [i|]; [|discriminate].
      unfold identity_choice_in_1_5 in Hic.
      destruct (EvidenceIdentityChoice_Identities i) as [[[|i0 l]|]|]; try discriminate; injection Hic as <-;
        cbn [EvidenceIdentityChoice_Identity EvidenceIdentityChoice_Identities]; split; trivial; intros j Hj.
      * injection Hj as <-. reflexivity.
      * apply if_present_some in Hj as (j0 & _ & ->). reflexivity.
    + intros o Ho. apply members_since_in in Ho as [_ Ho]. rewrite members_in_place in Ho.
      apply in_map_iff in Ho as (o0 & <- & _). repeat split.
Qed.

Lemma model_card_in_clean sv m : model_card_clean sv (model_card_in sv m).
Proof.
  unfold model_card_clean, older. intros L c Hc. unfold model_card_in in Hc; cbn [MLModelCard_Considerations] in Hc.
  apply if_present_some in Hc as (c0 & _ & ->). cbn. gate_simpl. reflexivity.
Qed.

Lemma crypto_in_clean sv cp : crypto_clean sv (crypto_in sv cp).
Proof.
  unfold crypto_clean, older, crypto_in. intros L.
  cbn [CryptoProperties_AlgorithmProperties CryptoProperties_CertificateProperties
       CryptoProperties_RelatedCryptoMaterialProperties CryptoProperties_ProtocolProperties].
  split; [|split; [|split]].
  - intros a Ha. apply if_present_some in Ha as (a0 & _ & ->). cbn. gate_simpl. auto.
  - intros c Hc. apply if_present_some in Hc as (c0 & _ & ->). cbn. gate_simpl. repeat split.
  - intros m Hm. apply if_present_some in Hm as (m0 & _ & ->). cbn. gate_simpl. repeat split.
  - intros p Hp. apply if_present_some in Hp as (p0 & _ & ->). cbn. gate_simpl. split; trivial.
    intros cs Hcs. rewrite members_in_place in Hcs. apply in_map_iff in Hcs as (cs0 & <- & _).
    cbn. gate_simpl. split; reflexivity.
Qed.

Ltac cf := unfold component_in_;
  cbn [Component_BOMRef Component_MIMEType Component_Type Component_Supplier Component_Manufacturer Component_Author Component_Authors
       Component_Publisher Component_Group Component_Name Component_Version Component_Description Component_Scope Component_Hashes
       Component_Licenses Component_Copyright Component_CPE Component_PackageURL Component_OmniborID Component_SWHID Component_SWID
       Component_Modified Component_Pedigree Component_ExternalReferences Component_Properties Component_Components Component_Evidence
       Component_ReleaseNotes Component_ModelCard Component_Data Component_CryptoProperties Component_Tags Component_IsExternal
       Component_PatentAssertions Component_VersionRange Component_Signature].

Lemma component_in_clean sv c : component_clean sv (component_in sv c).
Proof.
  rewrite component_in_fix. unfold component_clean, older.
  split; [intros; cf; gate_simpl; auto|].
  split; [intros; cf; gate_simpl; repeat split; trivial;
          intros p Hp; apply ptr_since_some in Hp as [_ Hp]; apply if_present_some in Hp as (p0 & _ & ->);
          cbn [pedigree_in Pedigree_Patches]; gate_simpl; reflexivity|].
  split; [intros; cf; gate_simpl; auto|].
  split; [intros; cf; gate_simpl; auto|].
  split; [intros; cf; gate_simpl; auto|].
  split; [intros; cf; gate_simpl; repeat split|].
  split; [intros; cf; gate_simpl; repeat split|].
  split; [cf; apply licenses_in_clean|].
  split; [cf; apply ptr_extrefs_in_clean|].
  split; [cf; intros e He; apply ptr_since_some in He as [_ He]; apply if_present_some in He as (e0 & _ & ->); apply evidence_in_clean|].
  split; [cf; intros e He; apply ptr_since_some in He as [_ He]; apply if_present_some in He as (e0 & _ & ->); apply model_card_in_clean|].
  split; [cf; intros e He; apply ptr_since_some in He as [_ He]; apply if_present_some in He as (e0 & _ & ->); apply crypto_in_clean|].
  split; cf; intros L.
  - destruct (Component_Modified c); [discriminate|]. destruct (Z.ltb_spec sv v1_1); [discriminate|lia].
  - destruct (Z.ltb_spec sv v1_4); [|lia]. cbn [andb].
    destruct (String.eqb_spec (Component_Version c) ""); [discriminate|assumption].
Qed.

Lemma license_in_new sv l : v1_7 <= sv -> license_in sv l = l.
Proof.
  intros H. assert (v1_1 <= sv /\ v1_5 <= sv /\ v1_6 <= sv) as (A1 & A5 & A6) by (unfold v1_1, v1_5, v1_6, v1_7 in *; lia).
  unfold license_in. gate_simpl.
  rewrite if_present_id; [destruct l; reflexivity|]. intros x. destruct x as [a b c d e f g h]. unfold licensing_in.
  rewrite !if_present_id; trivial; intros y; destruct y as [o i]; unfold party_in;
    (rewrite if_present_id; [reflexivity|intros z; apply entity_in_new; unfold sv_lt; apply Z.ltb_ge; exact A6]).
Qed.

Lemma licenses_in_new sv p : v1_7 <= sv -> licenses_in sv p = p.
Proof.
  intros H. unfold licenses_in.
  destruct (Z.ltb_spec sv v1_1); [unfold v1_1, v1_7 in *; lia|].
  apply in_place_id. intros c. assert (v1_1 <= sv) by lia.
  unfold license_choice_in. gate_simpl. rewrite if_present_id by (intros; apply license_in_new, H).
  destruct c; reflexivity.
Qed.

Lemma evidence_in_new sv e : v1_7 <= sv -> evidence_in sv e = e.
Proof.
  intros H. unfold evidence_in.
  assert (v1_5 <= sv /\ v1_6 <= sv) as [A5 A6] by (unfold v1_5, v1_6, v1_7 in *; lia).
  destruct (Z.ltb_spec sv v1_6); [lia|]. destruct (Z.ltb_spec sv v1_5); [lia|].
  gate_simpl. rewrite licenses_in_new by exact H. destruct e; reflexivity.
Qed.

Lemma model_card_in_new sv e : v1_6 <= sv -> model_card_in sv e = e.
Proof.
  intros H. unfold model_card_in. rewrite if_present_id; [destruct e; reflexivity|].
  intros c. unfold considerations_in. gate_simpl. destruct c; reflexivity.
Qed.

Lemma same_identity_1_5 i : same_identity i (identity_in_1_5 i).
Proof. repeat split. Qed.

Lemma one_identity_1_5 ic :
  one_identity ic (match ic with Some i => identity_choice_in_1_5 i | None => None end).
Proof.
  destruct ic as [[i [[[|f l]|]|]]|]; cbn; try reflexivity.
  - do 2 eexists. split; [reflexivity|]. split; [reflexivity|apply same_identity_1_5].
  - eexists. split; [reflexivity|]. destruct i; cbn; [apply same_identity_1_5|exact I].
Qed.

Lemma component_in_kept sv c : component_kept sv c (component_in sv c).
Proof.
  rewrite component_in_fix. unfold component_kept, newer.
  do 8 (split; [reflexivity|]).
  split.
  { cf. destruct (Z.ltb_spec sv v1_4); cbn [andb]; [|left; reflexivity].
    destruct (String.eqb_spec (Component_Version c) ""); auto. }
  split.
  { cf. destruct (Component_Modified c); [left; reflexivity|]. destruct (Z.ltb_spec sv v1_1); auto. }
  split.
  { intros L. cf. gate_simpl. split; [reflexivity|]. split.
    - destruct (Component_Pedigree c); cbn; split; congruence.
    - intros p p' Hp Hp'. rewrite Hp in Hp'. cbn in Hp'. injection Hp' as <-. cbn. repeat split.
      intros L2. gate_simpl. reflexivity. }
  split; [intros; cf; gate_simpl; auto|].
  split.
  { intros L. cf. gate_simpl. split; [reflexivity|]. intros e ->. cbn [if_present].
    eexists; split; [reflexivity|]. unfold evidence_in. cbn [Evidence_Copyright Evidence_Callstack Evidence_Identity Evidence_Occurrences].
    split; [reflexivity|]. split; [intros; gate_simpl; reflexivity|].
    split.
    { intros E5. assert (v1_5 <= sv) by lia. gate_simpl. rewrite E5. change (v1_5 <? v1_6) with true. cbv iota. split; [apply one_identity_1_5|].
      rewrite members_in_place. induction (members (Evidence_Occurrences e)); constructor; auto. }
    intros L6. assert (v1_5 <= sv) by (unfold v1_5, v1_6 in *; lia). gate_simpl.
    destruct (Z.ltb_spec sv v1_6); [lia|]. auto. }
  split; [intros; cf; gate_simpl; auto|].
  split; [intros; cf; gate_simpl; auto|].
  split; [intros L; cf; assert (v1_5 <= sv) by (unfold v1_5, v1_6 in *; lia); gate_simpl; repeat split;
          apply if_present_id; intros; apply model_card_in_new, L|].
  intros L; cf; assert (v1_3 <= sv) by (unfold v1_3, v1_7 in *; lia); gate_simpl; repeat split.
  - apply if_present_id; intros; apply evidence_in_new, L.
  - apply licenses_in_new, L.
Qed.

(** ** Services *)

Lemma service_below_in sv s path : service_below (service_in sv s) path = option_map (service_in sv) (service_below s path).
Proof.
  revert s; induction path as [|i path IH]; intros s; [reflexivity|].
  cbn [service_below]. rewrite service_in_fix. unfold service_in_; cbn [Service_Services].
  rewrite members_in_place, nth_error_map.
  destruct (nth_error (members (Service_Services s)) i); cbn [option_map]; [apply IH|reflexivity].
Qed.

Lemma service_at_convert sv b i path :
  v1_2 <= sv -> service_at (convert sv b) i path = option_map (service_in sv) (service_at b i path).
Proof.
  intros L. unfold service_at. rewrite convert_spec. unfold bom_in; cbn [BOM_Services].
  gate_simpl. rewrite members_in_place, nth_error_map.
  destruct (nth_error (members (BOM_Services b)) i); cbn [option_map]; [apply service_below_in|reflexivity].
Qed.

Lemma service_at_no_place sv b i path : sv < v1_2 -> service_at (convert sv b) i path = None.
Proof.
  intros L. unfold service_at. rewrite convert_spec. unfold bom_in; cbn [BOM_Services].
  gate_simpl. destruct i; reflexivity.
Qed.

Lemma service_at_image sv b i path s' :
  service_at (convert sv b) i path = Some s' ->
  v1_2 <= sv /\ exists s, service_at b i path = Some s /\ s' = service_in sv s.
Proof.
  intros H. destruct (Z.le_gt_cases v1_2 sv) as [L|L].
  - rewrite service_at_convert in H by exact L.
    destruct (service_at b i path) as [s|]; [|discriminate]. injection H as <-. eauto.
  - rewrite service_at_no_place in H by lia. discriminate.
Qed.

Lemma entity_in_clean sv o : entity_clean sv (entity_in sv o).
Proof.
  unfold entity_clean, older, entity_in. cbn. split; intros; gate_simpl; [split; trivial|reflexivity].
  intros c Hc. rewrite members_in_place in Hc. apply in_map_iff in Hc as (c0 & <- & _). cbn. gate_simpl. reflexivity.
Qed.

Lemma service_in_clean sv s : service_clean sv (service_in sv s).
Proof.
  rewrite service_in_fix. unfold service_clean, older, service_in_.
  cbn [Service_Properties Service_ReleaseNotes Service_TrustZone Service_Data Service_PatentAssertions Service_Provider Service_ExternalReferences].
  repeat (split; [intros; gate_simpl; reflexivity|]).
  split.
  { intros L d Hd. rewrite members_in_place in Hd. apply in_map_iff in Hd as (d0 & <- & _). cbn. gate_simpl. repeat split. }
  split; [intros; gate_simpl; reflexivity|].
  split.
  { intros p Hp. apply if_present_some in Hp as (p0 & _ & ->). apply entity_in_clean. }
  apply extrefs_in_clean.
Qed.

Lemma data_in_new sv d : v1_6 <= sv -> data_in sv d = d.
Proof. intros H. unfold data_in. gate_simpl. destruct d; reflexivity. Qed.

Lemma entity_in_new' sv o : v1_6 <= sv -> entity_in sv o = o.
Proof. intros H. apply entity_in_new. unfold sv_lt. apply Z.ltb_ge. exact H. Qed.

Lemma service_in_kept sv s : service_kept sv s (service_in sv s).
Proof.
  rewrite service_in_fix. unfold service_kept, newer, service_in_.
  cbn [Service_BOMRef Service_Group Service_Name Service_Version Service_Description Service_Endpoints Service_Authenticated
       Service_CrossesTrustBoundary Service_Licenses Service_Tags Service_Signature Service_Data Service_ExternalReferences
       Service_Provider Service_Properties Service_ReleaseNotes Service_TrustZone Service_PatentAssertions].
  do 11 (split; [reflexivity|]).
  rewrite !members_in_place, !map_map.
  do 4 (split; [apply map_ext; reflexivity|]).
  do 2 (split; [destruct (Service_Provider s); reflexivity|]).
  do 3 (split; [intros; gate_simpl; reflexivity|]).
  split.
  - intros L. split; [apply in_place_id; intros; apply data_in_new, L|apply if_present_id; intros; apply entity_in_new', L].
  - intros; gate_simpl; reflexivity.
Qed.

(** ** Lists *)

Lemma Forall2_map_r {A B} (R : A -> B -> Prop) f l : (forall x, In x l -> R x (f x)) -> Forall2 R l (map f l).
Proof. induction l as [|x l IH]; cbn; intros H; constructor; auto. Qed.

Lemma Forall2_in_place {A B} (R : A -> B -> Prop) f p : (forall x, R x (f x)) -> Forall2 R (members p) (members (in_place f p)).
Proof. intros H. rewrite members_in_place. apply Forall2_map_r. auto. Qed.

Lemma in_place_none {A B} (f : A -> B) p : in_place f p = None <-> p = None.
Proof. destruct p as [[l|]|]; cbn; split; congruence. Qed.

Lemma if_present_none {A B} (f : A -> B) p : if_present f p = None <-> p = None.
Proof. destruct p; cbn; split; congruence. Qed.

Lemma keep_none {A} (f : A -> bool) p : keep f p = None <-> p = None.
Proof. destruct p as [[l|]|]; cbn; split; congruence. Qed.

Lemma enum_or_downgraded fb e sv t : downgraded (in_enum e sv t) fb t (enum_or fb e sv t).
Proof. unfold enum_or, downgraded. destruct (in_enum e sv t); auto. Qed.

Lemma open_enum_or_downgraded fb e v sv t : downgraded (in_open_enum e v sv t) fb t (open_enum_or fb e v sv t).
Proof. unfold open_enum_or, downgraded. destruct (in_open_enum e v sv t); auto. Qed.

Lemma license_in_kept sv lc : license_kept sv lc (license_choice_in sv lc).
Proof.
  unfold license_kept, newer, license_choice_in, license_names.
  cbn [LicenseChoice_License LicenseChoice_Expression LicenseChoice_Acknowledgement LicenseChoice_BOMRef].
  split; [destruct (LicenseChoice_License lc); reflexivity|].
  do 2 (split; [reflexivity|]).
  split; [intros; gate_simpl; split; [reflexivity|]; destruct (LicenseChoice_License lc) as [l|]; cbn; [|auto];
          gate_simpl; auto|].
  split; [intros; destruct (LicenseChoice_License lc) as [l|]; cbn; [|auto]; gate_simpl; auto|].
  split.
  - intros L. apply if_present_id. intros l.
    assert (v1_1 <= sv /\ v1_5 <= sv) as (A1 & A5) by (unfold v1_1, v1_5, v1_6 in *; lia).
    unfold license_in. gate_simpl.
    rewrite if_present_id; [destruct l; reflexivity|]. intros x. destruct x as [a b c d e f g h]. unfold licensing_in.
    rewrite !if_present_id; trivial; intros y; destruct y as [o i]; unfold party_in;
    (rewrite if_present_id; [reflexivity|intros z; apply entity_in_new', L]).
  - intros L. assert (v1_1 <= sv) by (unfold v1_1, v1_7 in *; lia). gate_simpl.
    rewrite if_present_id by (intros; apply license_in_new, L). destruct lc; reflexivity.
Qed.

Lemma named_license_in sv lc : named_license (license_choice_in sv lc) = named_license lc.
Proof. unfold named_license, license_choice_in. cbn. destruct (LicenseChoice_License lc); reflexivity. Qed.

Lemma licenses_in_downgraded sv p : licenses_downgraded sv p (licenses_in sv p).
Proof.
  split.
  { unfold licenses_in. rewrite in_place_none. destruct (sv <? v1_1); [apply keep_none|reflexivity]. }
  split.
  { intros L. unfold licenses_in. destruct (Z.ltb_spec sv v1_1); [|lia].
    rewrite members_in_place, members_keep. split.
    - apply Forall2_map_r. intros; apply license_in_kept.
    - intros lc' H'. apply in_map_iff in H' as (lc & <- & H'). apply filter_In in H' as [_ H'].
      rewrite named_license_in. exact H'. }
  split.
  { intros L. unfold licenses_in. destruct (Z.ltb_spec sv v1_1); [lia|].
    apply Forall2_in_place. apply license_in_kept. }
  apply licenses_in_clean.
Qed.

Lemma hashes_in_downgraded sv p : hashes_downgraded sv p (hashes_in sv p).
Proof. split; [apply keep_none|apply members_keep]. Qed.

Lemma extref_types_in sv p : extref_types_downgraded sv p (in_place (extref_in sv) p).
Proof. apply Forall2_in_place. intros r. split; [apply open_enum_or_downgraded|split; reflexivity]. Qed.

Lemma all_tools_names t :
  map Tool_Name (all_tools t) = (map Tool_Name (members (ToolsChoice_Tools t)) ++
    map Component_Name (members (ToolsChoice_Components t)) ++ map Service_Name (members (ToolsChoice_Services t)))%list.
Proof. unfold all_tools. rewrite !map_app, !map_map. reflexivity. Qed.

Lemma tools_members sv t : sv < v1_5 -> members (ToolsChoice_Tools (tools_in sv t)) = map (tool_in sv) (all_tools t).
Proof.
  intros L. unfold tools_in. destruct (Z.ltb_spec sv v1_5); [|lia]. cbn [ToolsChoice_Tools].
  destruct (all_tools t) eqn:E; [|reflexivity].
  unfold all_tools in E. apply app_eq_nil in E as [E _]. rewrite E. reflexivity.
Qed.

Lemma map_const {A B} (x : B) (l : list A) : map (fun _ => x) l = map (fun _ => x) l.
Proof. reflexivity. Qed.

Lemma tools_in_downgraded sv p : tools_downgraded sv p (if_present (tools_in sv) p).
Proof.
  destruct p as [t|]; cbn [tools_downgraded if_present]; [|exact I]. split; intros L.
  - unfold tools_flattened. cbv zeta. rewrite tools_members by exact L.
    split; [unfold tools_in; destruct (Z.ltb_spec sv v1_5); [reflexivity|lia]|].
    split; [unfold tools_in; destruct (Z.ltb_spec sv v1_5); [reflexivity|lia]|].
    rewrite !map_map.
    split; [apply all_tools_names|].
    split; [unfold all_tools; rewrite !map_app, !map_map; reflexivity|].
    split; [unfold all_tools; rewrite !map_app, !map_map; reflexivity|].
    split.
    { replace (map Tool_Hashes (members (ToolsChoice_Tools t)) ++ map Component_Hashes (members (ToolsChoice_Components t)) ++
               map (fun _ => None) (members (ToolsChoice_Services t)))%list with (map Tool_Hashes (all_tools t))
        by (unfold all_tools; rewrite !map_app, !map_map; reflexivity).
      rewrite <- (map_map Tool_Hashes (hashes_in sv)).
      apply Forall2_map_r. intros; apply hashes_in_downgraded. }
    split.
    { intros L4. apply Forall_forall. intros x Hx. apply in_map_iff in Hx as (y & <- & _).
      unfold tool_in; cbn [Tool_ExternalReferences]. gate_simpl. reflexivity. }
    { intros L4. replace (map Tool_ExternalReferences (members (ToolsChoice_Tools t)) ++ map Component_ExternalReferences (members (ToolsChoice_Components t)) ++
               map Service_ExternalReferences (members (ToolsChoice_Services t)))%list with (map Tool_ExternalReferences (all_tools t))
        by (unfold all_tools; rewrite !map_app, !map_map; reflexivity).
      rewrite (map_ext (fun x => Tool_ExternalReferences (tool_in sv x)) (fun x => in_place (extref_in sv) (Tool_ExternalReferences x)))
        by (intros; unfold tool_in; cbn [Tool_ExternalReferences]; gate_simpl; reflexivity).
      rewrite <- (map_map Tool_ExternalReferences (in_place (extref_in sv))).
      apply Forall2_map_r. intros; apply extref_types_in. }
  - assert (L4 : v1_4 <= sv) by (unfold v1_4, v1_5 in *; lia).
    unfold tools_in_place, tools_in. destruct (Z.ltb_spec sv v1_5); [lia|].
    cbn [ToolsChoice_Tools ToolsChoice_Components ToolsChoice_Services].
    split; [reflexivity|]. split; [apply in_place_none|]. split; [apply in_place_none|]. split.
    + apply Forall2_in_place. intros x. unfold tool_in; cbn [Tool_Name Tool_Version Tool_Vendor Tool_Hashes Tool_ExternalReferences].
      gate_simpl. repeat (split; [reflexivity|]). split; [apply hashes_in_downgraded|apply extref_types_in].
    + apply Forall2_in_place. intros s. unfold tool_service_in. destruct s; cbn. split; [reflexivity|].
      split; [destruct Service_Provider; reflexivity|]. split.
      * intros p Hp. apply if_present_some in Hp as (p0 & _ & ->). apply entity_in_clean.
      * intros L6. rewrite if_present_id by (intros; apply entity_in_new', L6). reflexivity.
Qed.

(** ** Sections *)

Ltac bf := unfold bom_in;
  cbn [BOM_XMLName BOM_XMLNS BOM_JSONSchema BOM_BOMFormat BOM_SpecVersion BOM_SerialNumber BOM_Version BOM_Metadata BOM_Components
       BOM_Services BOM_ExternalReferences BOM_Dependencies BOM_Compositions BOM_Properties BOM_Vulnerabilities BOM_Annotations
       BOM_Formulation BOM_Declarations BOM_Definitions BOM_Citations BOM_Signature].

Lemma sections_removed_convert sv b : sections_removed sv (convert sv b).
Proof.
  rewrite convert_spec. unfold sections_removed, older.
  do 5 (split; [intros; bf; gate_simpl; auto|]).
  split.
  { intros; bf; gate_simpl; repeat split. intros d Hd. apply members_since_in in Hd as [_ Hd].
    rewrite members_in_place in Hd. apply in_map_iff in Hd as (d0 & <- & _). cbn. gate_simpl. reflexivity. }
  split.
  { intros; bf; gate_simpl; split; trivial. intros d Hd. apply ptr_since_some in Hd as [_ Hd].
    apply if_present_some in Hd as (d0 & _ & ->). cbn. gate_simpl. reflexivity. }
  bf. apply ptr_extrefs_in_clean.
Qed.

Lemma annotation_in_new sv a : v1_6 <= sv -> annotation_in sv a = a.
Proof.
  intros H. unfold annotation_in. rewrite if_present_id; [destruct a; reflexivity|].
  intros x. unfold annotator_in. destruct (Z.ltb_spec sv v1_6); [lia|reflexivity].
Qed.

Lemma sections_kept_convert sv b : sections_kept sv b (convert sv b).
Proof.
  rewrite convert_spec. unfold sections_kept, newer.
  do 5 (split; [reflexivity|]).
  split; [bf; apply in_place_none|].
  split; [intros; bf; gate_simpl; split; [reflexivity|apply in_place_none]|].
  split; [intros; bf; gate_simpl; split; [apply if_present_none|split; apply in_place_none]|].
  split; [intros; bf; gate_simpl; apply in_place_none|].
  split; [intros; bf; gate_simpl; apply in_place_none|].
  split; [intros; bf; gate_simpl; split; [apply in_place_none|reflexivity]|].
  split.
  - intros L; bf. assert (v1_2 <= sv /\ v1_5 <= sv) as [A2 A5] by (unfold v1_2, v1_5, v1_6 in *; lia). gate_simpl.
    split; [reflexivity|]. split; [destruct (BOM_Definitions b); reflexivity|]. split.
    + apply in_place_id. intros d. unfold dependency_in. gate_simpl. destruct d; reflexivity.
    + apply in_place_id. intros; apply annotation_in_new, L.
  - intros L; bf. assert (v1_6 <= sv) by (unfold v1_6, v1_7 in *; lia). gate_simpl. split; [reflexivity|].
    apply if_present_id. intros d. unfold definitions_in. gate_simpl. destruct d; reflexivity.
Qed.

Ltac mf := unfold metadata_in;
  cbn [Metadata_Timestamp Metadata_Lifecycles Metadata_Tools Metadata_Authors Metadata_Component Metadata_Manufacture
       Metadata_Manufacturer Metadata_Supplier Metadata_Licenses Metadata_Properties Metadata_DistributionConstraints].

Lemma metadata_in_clean sv m : metadata_clean sv (metadata_in sv m).
Proof.
  unfold metadata_clean, older.
  split; [intros; mf; gate_simpl; auto|].
  split; [intros; mf; gate_simpl; split; trivial; intros c Hc; rewrite members_in_place in Hc;
          apply in_map_iff in Hc as (c0 & <- & _); cbn; gate_simpl; reflexivity|].
  split; [intros; mf; gate_simpl; auto|].
  split; [intros; mf; gate_simpl; auto|].
  split; [mf; intros o Ho; apply if_present_some in Ho as (o0 & _ & ->); apply entity_in_clean|].
  split; [mf; intros o Ho; apply if_present_some in Ho as (o0 & _ & ->); apply entity_in_clean|].
  mf. intros lc H. apply members_since_in in H as [_ H]. exact (licenses_in_clean sv _ lc H).
Qed.

Lemma contact_in_new' sv c : v1_5 <= sv -> contact_in sv c = c.
Proof. intros H. unfold contact_in. gate_simpl. destruct c; reflexivity. Qed.

Lemma metadata_in_kept sv m : metadata_kept sv m (metadata_in sv m).
Proof.
  unfold metadata_kept, newer.
  split; [reflexivity|].
  split; [mf; rewrite members_in_place, map_map; apply map_ext; reflexivity|].
  split; [intros; mf; gate_simpl; split; [apply licenses_in_downgraded|reflexivity]|].
  split; [intros L; mf; gate_simpl; split; [reflexivity|apply in_place_id; intros; apply contact_in_new', L]|].
  split; [intros L; mf; gate_simpl; repeat split; apply if_present_id; intros; apply entity_in_new', L|].
  intros; mf; gate_simpl; reflexivity.
Qed.

Lemma metadata_convert sv b :
  BOM_Metadata (convert sv b) = if v1_2 <=? sv then option_map (metadata_in sv) (BOM_Metadata b) else None.
Proof. rewrite convert_spec. bf. unfold ptr_since, since. destruct (v1_2 <=? sv); [destruct (BOM_Metadata b)|]; reflexivity. Qed.

Lemma composition_in_downgraded sv c : composition_downgraded sv c (composition_in sv c).
Proof.
  unfold composition_downgraded, older, newer, composition_in;
    cbn [Composition_Assemblies Composition_Dependencies Composition_Signature Composition_Aggregate Composition_BOMRef Composition_Vulnerabilities].
  do 3 (split; [reflexivity|]). split; [apply open_enum_or_downgraded|].
  split; intros; gate_simpl; auto.
Qed.

Lemma rating_in_downgraded sv r : rating_downgraded sv r (rating_in sv r).
Proof. unfold rating_downgraded, rating_in;
    cbn [VulnerabilityRating_Source VulnerabilityRating_Score VulnerabilityRating_Severity VulnerabilityRating_Method VulnerabilityRating_Vector VulnerabilityRating_Justification]. do 5 (split; [reflexivity|]). apply enum_or_downgraded. Qed.

Lemma vulnerability_in_downgraded sv v : vulnerability_downgraded sv v (vulnerability_in sv v).
Proof.
  unfold vulnerability_downgraded, older, newer, vulnerability_in.
  cbn [Vulnerability_BOMRef Vulnerability_ID Vulnerability_Source Vulnerability_References Vulnerability_Ratings Vulnerability_CWEs
       Vulnerability_Description Vulnerability_Detail Vulnerability_Recommendation Vulnerability_Workaround Vulnerability_ProofOfConcept
       Vulnerability_Advisories Vulnerability_Created Vulnerability_Published Vulnerability_Updated Vulnerability_Rejected
       Vulnerability_Credits Vulnerability_Tools Vulnerability_Analysis Vulnerability_Affects Vulnerability_Properties].
  do 14 (split; [reflexivity|]).
  split; [apply Forall2_in_place, rating_in_downgraded|].
  split; [apply tools_in_downgraded|].
  split.
  { intros; gate_simpl; repeat split; apply if_present_some in H0 as (a0 & _ & ->); cbn; gate_simpl; reflexivity. }
  do 4 (split; [destruct (Vulnerability_Analysis v); reflexivity|]).
  split.
  { intros; gate_simpl; repeat split. apply if_present_id. intros a. unfold analysis_in. gate_simpl. destruct a; reflexivity. }
  split.
  { intros cr Hcr. apply if_present_some in Hcr as (cr0 & _ & ->). cbn. rewrite !members_in_place. split.
    - intros o Ho. apply in_map_iff in Ho as (o0 & <- & _). apply entity_in_clean.
    - intros L i Hi. apply in_map_iff in Hi as (i0 & <- & _). cbn. gate_simpl. reflexivity. }
  intros L. apply if_present_id. intros cr. unfold credits_in.
  rewrite !in_place_id; [destruct cr; reflexivity|..]; intros; [apply contact_in_new'; unfold v1_5, v1_6 in *; lia|apply entity_in_new', L].
Qed.

Lemma component_in_enums sv c : component_enums_downgraded sv c (component_in sv c).
Proof.
  rewrite component_in_fix. unfold component_enums_downgraded, newer.
  split; [cf; apply enum_or_downgraded|].
  split; [cf; apply enum_or_downgraded|].
  split; [intros; cf; gate_simpl; apply extref_types_in|].
  intros L cp Hcp. cf. gate_simpl. rewrite Hcp. eexists; split; [reflexivity|]. unfold crypto_enums_downgraded, crypto_in.
  cbn [CryptoProperties_AlgorithmProperties CryptoProperties_ProtocolProperties]. split.
  - intros a a' -> [= <-]. apply open_enum_or_downgraded.
  - intros a a' -> [= <-]. apply open_enum_or_downgraded.
Qed.
