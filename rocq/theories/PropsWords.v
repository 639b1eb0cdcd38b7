(** Property theorems for C50: where the official schema of a version lists the words that a
    member may have, EncodeVersion writes one of them. Which documents a schema allows is in
    SchemaSpec.v, the places of a document are in SiteSpec.v, the schemas in Schemas.v. *)
From Verif Require Import Base Types Univ TypeTable Wt Reify Consts LinkModel Version Numbers Utf8 GobModel JsonModel JsonText JsonIO JsonTextMore JsonGrammar JsonGrammarProofs ConvertModel ConvertSpec ConvertReach ConvertPropProofs ConvertReachProofs SchemaSpec Schemas JsonBom JsonChoices SiteSpec SiteProofs PropsGrammar PropsSites.
Local Open Scope string_scope.
Local Open Scope Z_scope.

(** In the schema [d] the definition [n] has a member [k], and [y] conforms to it. *)
Definition allowed (d : schemas) (n k : string) (y : json) : Prop :=
  exists ms r s, assoc n d = Some (Object ms r) /\ assoc k ms = Some s /\ conforms d s y.

(** ** The tables of ConvertSpec.v and the lists of the schemas *)
Definition word_ok (d : schemas) (n k w : string) : bool :=
  match assoc n d with
  | Some (Object ms _) => match assoc k ms with
                          | Some (Words l) => mem w l
                          | Some (Ref m) => match assoc m d with Some (Words l) => mem w l | _ => false end
                          | _ => false
                          end
  | _ => false
  end.
Lemma word_allowed d n k w : word_ok d n k w = true -> allowed d n k (JStr w).
Proof.
  unfold word_ok, allowed. destruct (assoc n d) as [[| | | | | | |ms r| | | ]|]; try discriminate. destruct (assoc k ms) as [s|] eqn:K; [|discriminate]. intros H. exists ms, r, s. split; [reflexivity|]. split; [exact K|].
  destruct s as [| |l| | | | | |m| | ]; try discriminate; [apply co_words, mem_in, H|]. destruct (assoc m d) as [[| |l| | | | | | | | ]|] eqn:M; try discriminate. apply (co_ref d m (Words l)); [exact M|apply co_words, mem_in, H].
Qed.
Definition table_ok (e : enum) (n k : string) (m : SpecVersion * schemas) : bool :=
  forallb (fun w => if snd w <=? fst m then word_ok (snd m) n k (fst w) && String.eqb (to_utf8 (fst w)) (fst w) else true) e.
Lemma tables_ok : forallb (fun m => table_ok component_types "component" "type" m && table_ok scopes "component" "scope" m && table_ok hash_algorithms "hash" "alg" m && table_ok scoring_methods "rating" "method" m) versions = true.
Proof. vm_compute. reflexivity. Qed.
Lemma in_enum_listed e sv t : in_enum e sv t = true -> exists v, In (t, v) e /\ (v <=? sv) = true.
Proof.
  induction e as [|[s v] e IH]; cbn [in_enum]; [discriminate|]. destruct (String.eqb s t) eqn:Q.
  - apply String.eqb_eq in Q. subst. intros H. exists v. split; [left; reflexivity|exact H].
  - intros H. destruct (IH H) as (v' & I & L). exists v'. split; [right; exact I|exact L].
Qed.
Lemma table_allowed e n k sv d t : table_ok e n k (sv, d) = true -> in_enum e sv t = true -> allowed d n k (JStr (to_utf8 t)).
Proof.
  intros T H. apply in_enum_listed in H as (v & I & L). unfold table_ok in T. rewrite forallb_forall in T. specialize (T _ I). cbn [fst snd] in T. rewrite L in T. apply andb_prop in T as (W & U). apply String.eqb_eq in U. rewrite U. exact (word_allowed d n k t W).
Qed.
Lemma tables sv d : In (sv, d) versions -> table_ok component_types "component" "type" (sv, d) = true /\ table_ok scopes "component" "scope" (sv, d) = true /\ table_ok hash_algorithms "hash" "alg" (sv, d) = true /\ table_ok scoring_methods "rating" "method" (sv, d) = true.
Proof. intros V. pose proof tables_ok as T. rewrite forallb_forall in T. specialize (T _ V). apply andb_prop in T as (T & T4). apply andb_prop in T as (T & T3). apply andb_prop in T as (T1 & T2). auto. Qed.

(** ** What is written *)
Lemma enc_text s y : enc TStr (VStr s) y -> y = JStr (to_utf8 s).
Proof. intros (esc & o & E & ->). cbn [jenc] in E. injection E as <-. reflexivity. Qed.
Lemma type_word sv d c c' x y : In (sv, d) versions -> component_enums_downgraded sv c c' -> enc (TRef "Component") (reify_Component c') x -> sub x "type" y -> allowed d "component" "type" y.
Proof.
  intros V (D & _) X S. rewrite component_struct in X.
  assert (Q : exists omit, found (fields_of (TRef "Component")) (component_parts c') "type" = Some (TStr, VStr (Component_Type c'), omit)) by (destruct c'; eexists; reflexivity). destruct Q as (omit & Q).
  destruct (member_of "Component" _ x "type" y _ _ _ eq_refl eq_refl X S Q) as (_ & Y). apply enc_text in Y. subst y.
  apply (table_allowed component_types "component" "type" sv d); [apply (tables sv d V)|]. destruct D as [(H & ->)|(_ & ->)]; [exact H|]. apply (fallbacks_defined sv). exact (version_one sv d V).
Qed.
Lemma scope_word sv d c c' x y : In (sv, d) versions -> component_enums_downgraded sv c c' -> enc (TRef "Component") (reify_Component c') x -> sub x "scope" y -> allowed d "component" "scope" y.
Proof.
  intros V (_ & D & _) X S. rewrite component_struct in X.
  assert (Q : found (fields_of (TRef "Component")) (component_parts c') "scope" = Some (TStr, VStr (Component_Scope c'), true)) by (destruct c'; reflexivity).
  destruct (member_of "Component" _ x "scope" y _ _ _ eq_refl eq_refl X S Q) as (O & Y). apply enc_text in Y. subst y.
  apply (table_allowed scopes "component" "scope" sv d); [apply (tables sv d V)|]. destruct D as [(H & ->)|(_ & Z)]; [exact H|]. rewrite Z in O. discriminate O.
Qed.
Lemma hash_word sv d p p' h x y : In (sv, d) versions -> hashes_downgraded sv p p' -> In h (members p') -> enc (TRef "Hash") (reify_Hash h) x -> sub x "alg" y -> allowed d "hash" "alg" y.
Proof.
  intros V (_ & F) I X S. rewrite F in I. apply filter_In in I as (_ & I).
  destruct (member_of "Hash" _ x "alg" y TStr (VStr (Hash_Algorithm h)) false eq_refl eq_refl X S eq_refl) as (_ & Y). apply enc_text in Y. subst y.
  apply (table_allowed hash_algorithms "hash" "alg" sv d); [apply (tables sv d V)|exact I].
Qed.
Lemma hash_words sv d p c' x h y : In (sv, d) versions -> hashes_downgraded sv p (Component_Hashes c') -> enc (TRef "Component") (reify_Component c') x -> item x "hashes" h -> sub h "alg" y -> allowed d "hash" "alg" y.
Proof.
  intros V H X S A. rewrite component_struct in X.
  assert (Q : found (fields_of (TRef "Component")) (component_parts c') "hashes" = Some (TPtr (TSlice (TRef "Hash")), vptr (vslice reify_Hash) (Component_Hashes c'), true)) by (destruct c'; reflexivity).
  destruct (items_of "Component" _ x "hashes" h _ _ _ _ eq_refl eq_refl X S Q) as (i & z & N & Y). exact (hash_word sv d p _ z h y V H (nth_in _ _ _ N) Y A).
Qed.
Lemma method_word sv d r r' x y : In (sv, d) versions -> v1_4 <= sv -> rating_downgraded sv r r' -> enc (TRef "VulnerabilityRating") (reify_VulnerabilityRating r') x -> sub x "method" y -> allowed d "rating" "method" y.
Proof.
  intros V L R X S. destruct R as (_ & _ & _ & _ & _ & D).
  destruct (member_of "VulnerabilityRating" _ x "method" y TStr (VStr (VulnerabilityRating_Method r')) true eq_refl eq_refl X S eq_refl) as (_ & Y). apply enc_text in Y. subst y.
  apply (table_allowed scoring_methods "rating" "method" sv d); [apply (tables sv d V)|]. destruct D as [(H & ->)|(_ & ->)]; [exact H|]. apply (fallbacks_defined sv). exact L.
Qed.
Lemma component_site sv b doc x : enc (TRef "BOM") (reify_BOM (convert sv b)) doc -> site doc "component" x -> x = JNull \/
  exists c c', component_enums_downgraded sv c c' /\ hashes_downgraded sv (Component_Hashes c) (Component_Hashes c') /\ enc (TRef "Component") (reify_Component c') x.
Proof.
  intros E S. apply (site_source sv b doc E) in S. inversion S as [| | r steps c' ? C X| | | | | | | | | ]; subst; [|left; reflexivity]. right.
  destruct (component_at_image sv b r steps c' C) as (_ & c & C0 & _). exists c, c'. split; [exact (component_enums sv b r steps c c' C0 C)|]. split; [exact (component_hashes sv b r steps c c' C0 C)|exact X].
Qed.
Lemma rating_site sv b doc w x : enc (TRef "BOM") (reify_BOM (convert sv b)) doc -> item doc "vulnerabilities" w -> item w "ratings" x ->
  v1_4 <= sv /\ exists r r', rating_downgraded sv r r' /\ enc (TRef "VulnerabilityRating") (reify_VulnerabilityRating r') x.
Proof.
  intros E S R. destruct (items_of "BOM" _ doc "vulnerabilities" w (TRef "Vulnerability") reify_Vulnerability (BOM_Vulnerabilities (convert sv b)) true eq_refl eq_refl E S eq_refl) as (i & v & N & X). apply nth_in in N.
  destruct (Z_lt_le_dec sv v1_4) as [L|L]; [destruct (sections_removed_convert sv b) as (_ & _ & _ & C & _); rewrite (C L) in N; destruct N|]. split; [exact L|].
  destruct (Forall2_right _ _ _ v (vulnerabilities_downgraded sv b L) N) as (v0 & D). unfold vulnerability_downgraded in D. do 14 apply proj2 in D. apply proj1 in D.
  destruct (items_of "Vulnerability" _ w "ratings" x (TRef "VulnerabilityRating") reify_VulnerabilityRating (Vulnerability_Ratings v) true eq_refl eq_refl X R eq_refl) as (k & r' & M & Y).
  destruct (Forall2_right _ _ _ r' D (nth_in _ _ _ M)) as (r & Q). exists r, r'. split; assumption.
Qed.

(** Whatever the BOM is, and whatever version from 1.2 on it is encoded for: the type and the
    scope of every component, the algorithms of its hashes and the methods of the ratings of
    vulnerabilities are words that the schema of the version lists. Missing from the full
    property: the other members with such a list. *)
Theorem C50_json_words_partial : forall sv d b esc o, In (sv, d) versions -> json_encode_version esc sv b = Ok o ->
  (forall c k y, site (erase o) "component" c -> In k ["type"; "scope"] -> sub c k y -> allowed d "component" k y) /\
  (forall c h y, site (erase o) "component" c -> item c "hashes" h -> sub h "alg" y -> allowed d "hash" "alg" y) /\
  (forall w r y, item (erase o) "vulnerabilities" w -> item w "ratings" r -> sub r "method" y -> allowed d "rating" "method" y).
Proof.
  intros sv d b esc o V E. destruct (version_written esc sv b o E) as (B & X). split; [|split].
  - intros c k y S K M. destruct (component_site sv B (erase o) c X S) as [->|(a & a' & D & _ & Y)]; [destruct (sub_null _ _ M)|].
    destruct K as [<-|[<-|[]]]; [exact (type_word sv d a a' c y V D Y M)|exact (scope_word sv d a a' c y V D Y M)].
  - intros c h y S I M. destruct (component_site sv B (erase o) c X S) as [->|(a & a' & _ & H & Y)]; [destruct (item_null _ _ I)|]. exact (hash_words sv d _ a' c h y V H Y I M).
  - intros w r y S I M. destruct (rating_site sv B (erase o) w r X S I) as (L & q & q' & D & Y). exact (method_word sv d q q' r y V L D Y M).
Qed.
(** The same for the texts that are written *)
Theorem C50_json_texts_partial : forall sv d b pretty esc t, In (sv, d) versions -> json_encode_version_text pretty esc sv b = Ok t ->
  exists j, document t j /\
  (forall c k y, site j "component" c -> In k ["type"; "scope"] -> sub c k y -> allowed d "component" k y) /\
  (forall c h y, site j "component" c -> item c "hashes" h -> sub h "alg" y -> allowed d "hash" "alg" y) /\
  (forall w r y, item j "vulnerabilities" w -> item w "ratings" r -> sub r "method" y -> allowed d "rating" "method" y).
Proof.
  intros sv d b pretty esc t V E. destruct (text_copied pretty esc sv b t E) as (c & C). rewrite (version_text_eq pretty esc sv b c C) in E.
  apply C40_json_written in E as (o & Eo & D). exists (erase o). split; [exact D|]. rewrite <- (encode_version_eq esc sv b c C) in Eo. exact (C50_json_words_partial sv d b esc o V Eo).
Qed.

(** A document with words that 1.4 does not list, at all these places and at three others. *)
Definition wordy : json :=
  let hash a := JObj [("alg", JStr a); ("content", JStr "00")] in
  JObj [("specVersion", JStr "1.7");
        ("components", JArr [JObj [("type", JStr "data"); ("name", JStr "c"); ("scope", JStr "optional"); ("hashes", JArr [hash "Streebog-256"; hash "MD5"]);
                                   ("externalReferences", JArr [JObj [("type", JStr "surprise"); ("url", JStr "u"); ("hashes", JArr [hash "Streebog-256"])]])]]);
        ("compositions", JArr [JObj [("aggregate", JStr "surprise")]]);
        ("vulnerabilities", JArr [JObj [("id", JStr "v"); ("ratings", JArr [JObj [("method", JStr "SSVC")]])]])].
(** The hypotheses are met, and the words are replaced. *)
Example C50_json_nonvacuous : exists b o c h w r, bom_of_json wordy zero_BOM = Ok b /\ json_encode_version true SpecVersion1_4 b = Ok o /\
  item (erase o) "components" c /\ site (erase o) "component" c /\ get "type" c = Some (JStr "application") /\ get "scope" c = Some (JStr "optional") /\
  sub c "hashes" (JArr [h]) /\ get "alg" h = Some (JStr "MD5") /\ item (erase o) "vulnerabilities" w /\ item w "ratings" r /\ get "method" r = Some (JStr "other").
Proof.
  do 6 eexists. split; [vm_compute; reflexivity|]. split; [vm_compute; reflexivity|].
  match goal with |- ?A /\ ?R => assert (I : A) by (apply first_item; vm_compute; reflexivity) end. split; [exact I|]. split; [exact (s_component _ _ I)|].
  split; [vm_compute; reflexivity|]. split; [vm_compute; reflexivity|]. split; [apply get_sub; vm_compute; reflexivity|]. split; [vm_compute; reflexivity|].
  split; [apply first_item; vm_compute; reflexivity|]. split; [apply first_item; vm_compute; reflexivity|]. vm_compute. reflexivity.
Qed.
(** It does not hold for every list of words: the hashes of references are not filtered, and
    words that no version lists stay as types of references and as aggregates. *)
Lemma forbidden d n k w ms r l : assoc n d = Some (Object ms r) -> assoc k ms = Some (Words l) -> mem w l = false -> ~ allowed d n k (JStr w).
Proof.
  intros N K M (ms' & r' & s & N' & K' & C). rewrite N in N'. injection N' as <- <-. rewrite K in K'. injection K' as <-. inversion C as [| |? ? I| | | | | | | | ]; subst. apply mem_in in I. rewrite I in M. discriminate.
Qed.
Lemma forbidden_ref d n k m w ms r l : assoc n d = Some (Object ms r) -> assoc k ms = Some (Ref m) -> assoc m d = Some (Words l) -> mem w l = false -> ~ allowed d n k (JStr w).
Proof.
  intros N K R M (ms' & r' & s & N' & K' & C). rewrite N in N'. injection N' as <- <-. rewrite K in K'. injection K' as <-. inversion C as [| | | | | | | |? s ? R' C'| | ]; subst. rewrite R in R'. injection R' as <-.
  inversion C' as [| |? ? I| | | | | | | | ]; subst. apply mem_in in I. rewrite I in M. discriminate.
Qed.
Theorem C50_json_other_words_refuted : exists b o c r h k, bom_of_json wordy zero_BOM = Ok b /\ json_encode_version true SpecVersion1_4 b = Ok o /\
  item (erase o) "components" c /\ item c "externalReferences" r /\ item r "hashes" h /\ item (erase o) "compositions" k /\
  sub r "type" (JStr "surprise") /\ ~ allowed schema_1_4 "externalReference" "type" (JStr "surprise") /\
  sub h "alg" (JStr "Streebog-256") /\ ~ allowed schema_1_4 "hash" "alg" (JStr "Streebog-256") /\
  sub k "aggregate" (JStr "surprise") /\ ~ allowed schema_1_4 "compositions" "aggregate" (JStr "surprise").
Proof.
  do 6 eexists. split; [vm_compute; reflexivity|]. split; [vm_compute; reflexivity|].
  split; [apply first_item; vm_compute; reflexivity|]. split; [apply first_item; vm_compute; reflexivity|]. split; [apply first_item; vm_compute; reflexivity|]. split; [apply first_item; vm_compute; reflexivity|].
  split; [apply get_sub; vm_compute; reflexivity|]. split; [first [eapply forbidden|eapply forbidden_ref]; vm_compute; reflexivity|].
  split; [apply get_sub; vm_compute; reflexivity|]. split; [first [eapply forbidden_ref; vm_compute; reflexivity|eapply forbidden; vm_compute; reflexivity]|].
  split; [apply get_sub; vm_compute; reflexivity|]. first [eapply forbidden_ref; vm_compute; reflexivity|eapply forbidden; vm_compute; reflexivity].
Qed.

(** ** Words of newer versions
    Where convert replaces only the words that it knows to be newer, other words stay. So the
    claim is: of the words that 1.7 lists, only those of the version are written. *)

(** The types of references that convert does not know to be newer, and the version that lists
    them first *)
Definition unnoticed : list (string * SpecVersion) :=
  [ ("release-notes", SpecVersion1_4); ("security-contact", SpecVersion1_5); ("poam", SpecVersion1_5); ("source-distribution", SpecVersion1_6);
    ("electronic-signature", SpecVersion1_6); ("digital-signature", SpecVersion1_6); ("rfc-9116", SpecVersion1_6) ].

Definition words_of (d : schemas) (n k : string) : list string :=
  match assoc n d with
  | Some (Object ms _) => match assoc k ms with
                          | Some (Words l) => l
                          | Some (Ref m) => match assoc m d with Some (Words l) => l | _ => [] end
                          | _ => []
                          end
  | _ => []
  end.
Definition listing (d : schemas) (n k : string) : bool :=
  match assoc n d with
  | Some (Object ms _) => match assoc k ms with
                          | Some (Words _) => true
                          | Some (Ref m) => match assoc m d with Some (Words _) => true | _ => false end
                          | _ => false
                          end
  | _ => false
  end.
Lemma allowed_listed d n k w : listing d n k = true -> allowed d n k (JStr w) -> In w (words_of d n k).
Proof.
  intros L (ms & r & s & N & K & C). unfold listing, words_of in *. rewrite N, K in *. destruct s as [| |l| | | | | |m| | ]; try discriminate L.
  - inversion C; subst. assumption.
  - inversion C as [| | | | | | | |? s ? R C'| | ]; subst. rewrite R in *. destruct s as [| |l| | | | | | | | ]; try discriminate L. inversion C'; subst. assumption.
Qed.
(** Bytes below 128 *)
Fixpoint plain (s : string) : bool := match s with EmptyString => true | String a s' => one a && plain s' end.
Lemma plain_same s : plain (to_utf8 s) = true -> to_utf8 s = s.
Proof.
  induction s as [|a s IH]; [reflexivity|]. cbn [to_utf8]. destruct (one a) eqn:O.
  - cbn [plain]. rewrite O. cbn [andb]. intros P. rewrite (IH P). reflexivity.
  - assert (X : forall t, plain (String a t) = true -> False) by (intros t; cbn [plain]; rewrite O; discriminate).
    assert (Y : forall t, plain (replacement ++ t) = true -> False) by (intros t; cbn; discriminate).
    assert (Z : plain replacement = true -> False) by (cbn; discriminate).
    destruct s as [|b s]; [intros P; destruct (Z P)|]. destruct (two a b); [intros P; destruct (X _ P)|].
    destruct s as [|c s]; [intros P; destruct (Y _ P)|]. destruct (three a b c); [intros P; destruct (X _ P)|].
    destruct s as [|e s]; [intros P; destruct (Y _ P)|]. destruct (four a b c e); intros P; [destruct (X _ P)|destruct (Y _ P)].
Qed.
Definition newer_ok (e : enum) (v0 : SpecVersion) (n k : string) (except : list (string * SpecVersion)) (m : SpecVersion * schemas) : bool :=
  forallb (fun w => plain w && if in_open_enum e v0 (fst m) w then word_ok (snd m) n k w || existsb (fun u => String.eqb (fst u) w && (fst m <? snd u)) except else true) (words_of schema_1_7 n k).
Lemma newer_tables : listing schema_1_7 "externalReference" "type" = true /\ listing schema_1_7 "compositions" "aggregate" = true /\
  forallb (newer_ok external_reference_types v1_1 "externalReference" "type" unnoticed) versions = true /\
  forallb (fun m => if v1_3 <=? fst m then newer_ok composition_aggregates v1_3 "compositions" "aggregate" [] m else true) versions = true.
Proof. vm_compute. auto. Qed.
Lemma newer_allowed e v0 n k except sv d t : newer_ok e v0 n k except (sv, d) = true -> listing schema_1_7 n k = true -> in_open_enum e v0 sv t = true -> allowed schema_1_7 n k (JStr (to_utf8 t)) ->
  allowed d n k (JStr (to_utf8 t)) \/ exists w v, In (w, v) except /\ sv < v /\ JStr (to_utf8 t) = JStr w.
Proof.
  intros N L T A. apply allowed_listed in A; [|exact L]. unfold newer_ok in N. rewrite forallb_forall in N. specialize (N _ A). cbn [fst snd] in N. apply andb_prop in N as (P & N). rewrite (plain_same t P) in *. rewrite T in N.
  apply orb_prop in N as [N|N]; [left; exact (word_allowed d n k t N)|]. right. apply existsb_exists in N as ((w & v) & I & Q). cbn [fst snd] in Q. apply andb_prop in Q as (Q & V). apply String.eqb_eq in Q. apply Z.ltb_lt in V. subst w. exists t, v. auto.
Qed.
Lemma reference_word sv d p p' r x y : In (sv, d) versions -> extref_types_downgraded sv p p' -> In r (members p') -> enc (TRef "ExternalReference") (reify_ExternalReference r) x -> sub x "type" y -> allowed schema_1_7 "externalReference" "type" y ->
  allowed d "externalReference" "type" y \/ exists w v, In (w, v) unnoticed /\ sv < v /\ y = JStr w.
Proof.
  intros V D I X S A. destruct (Forall2_right _ _ _ r D I) as (r0 & Q & _).
  assert (F : exists omit, found (fields_of (TRef "ExternalReference")) (match reify_ExternalReference r with VStruct vs => vs | _ => [] end) "type" = Some (TStr, VStr (ExternalReference_Type r), omit)) by (destruct r; eexists; reflexivity). destruct F as (omit & F).
  assert (R : reify_ExternalReference r = VStruct (match reify_ExternalReference r with VStruct vs => vs | _ => [] end)) by (destruct r; reflexivity). rewrite R in X.
  destruct (member_of "ExternalReference" _ x "type" y _ _ _ eq_refl eq_refl X S F) as (_ & Y). apply enc_text in Y. subst y.
  destruct newer_tables as (L & _ & T & _). rewrite forallb_forall in T. apply (newer_allowed external_reference_types v1_1 "externalReference" "type" unnoticed sv d); [exact (T _ V)|exact L| |exact A].
  destruct Q as [(H & ->)|(_ & ->)]; [exact H|]. apply (fallbacks_defined sv). clear - V. repeat (destruct V as [[= <- <-]|V]; [discriminate|]). contradiction V.
Qed.
Lemma version_two sv d : In (sv, d) versions -> v1_1 <= sv.
Proof. intros V. repeat (destruct V as [[= <- <-]|V]; [discriminate|]). contradiction V. Qed.
Lemma reference_site sv d b doc x : In (sv, d) versions -> enc (TRef "BOM") (reify_BOM (convert sv b)) doc -> site doc "externalReference" x ->
  exists p p' r, extref_types_downgraded sv p p' /\ In r (members p') /\ enc (TRef "ExternalReference") (reify_ExternalReference r) x.
Proof.
  intros V E S. pose proof (version_two sv d V) as L. inversion S as [| | | | | | | | | | | |n y ? N T I| | | ]; subst. apply (site_source sv b doc E) in T. destruct N as [<-|[<-|[<-|[]]]].
  - inversion T as [? X| | | | | | | | | | | ]; subst; [|destruct (item_null _ _ I)].
    destruct (items_of "BOM" _ y "externalReferences" x (TRef "ExternalReference") reify_ExternalReference (BOM_ExternalReferences (convert sv b)) true eq_refl eq_refl X I eq_refl) as (i & r & N & Y).
    exists (BOM_ExternalReferences b), (BOM_ExternalReferences (convert sv b)), r. split; [exact (bom_extrefs sv b L)|]. split; [exact (nth_in _ _ _ N)|exact Y].
  - inversion T as [| | r steps c' ? C X| | | | | | | | | ]; subst; [|destruct (item_null _ _ I)]. rewrite component_struct in X.
    assert (Q : found (fields_of (TRef "Component")) (component_parts c') "externalReferences" = Some (TPtr (TSlice (TRef "ExternalReference")), vptr (vslice reify_ExternalReference) (Component_ExternalReferences c'), true)) by (destruct c'; reflexivity).
    destruct (items_of "Component" _ y "externalReferences" x _ _ _ _ eq_refl eq_refl X I Q) as (i & z & N & Y).
    destruct (component_at_image sv b r steps c' C) as (_ & c & C0 & _). destruct (component_enums sv b r steps c c' C0 C) as (_ & _ & D & _).
    exists (Component_ExternalReferences c), (Component_ExternalReferences c'), z. split; [exact (D L)|]. split; [exact (nth_in _ _ _ N)|exact Y].
  - inversion T as [| | | i path s' ? C X| | | | | | | | ]; subst; [|destruct (item_null _ _ I)]. rewrite service_struct in X.
    assert (Q : found (fields_of (TRef "Service")) (service_parts s') "externalReferences" = Some (TPtr (TSlice (TRef "ExternalReference")), vptr (vslice reify_ExternalReference) (Service_ExternalReferences s'), true)) by (destruct s'; reflexivity).
    destruct (items_of "Service" _ y "externalReferences" x _ _ _ _ eq_refl eq_refl X I Q) as (k & z & N & Y).
    destruct (service_at_image sv b i path s' C) as (_ & s & C0 & _).
    exists (Service_ExternalReferences s), (Service_ExternalReferences s'), z. split; [exact (service_enums sv b i path s s' C0 C)|]. split; [exact (nth_in _ _ _ N)|exact Y].
Qed.
Lemma aggregate_word sv d b doc x y : In (sv, d) versions -> enc (TRef "BOM") (reify_BOM (convert sv b)) doc -> item doc "compositions" x -> sub x "aggregate" y -> allowed schema_1_7 "compositions" "aggregate" y -> allowed d "compositions" "aggregate" y.
Proof.
  intros V E S M A. destruct (items_of "BOM" _ doc "compositions" x (TRef "Composition") reify_Composition (BOM_Compositions (convert sv b)) true eq_refl eq_refl E S eq_refl) as (i & c & N & X). apply nth_in in N.
  destruct (Z_lt_le_dec sv v1_3) as [L|L]; [destruct (sections_removed_convert sv b) as (_ & _ & C & _); rewrite (C L) in N; destruct N|].
  destruct (Forall2_right _ _ _ c (compositions_downgraded sv b L) N) as (c0 & R). destruct R as (_ & _ & _ & Q & _).
  assert (F : exists omit, found (fields_of (TRef "Composition")) (match reify_Composition c with VStruct vs => vs | _ => [] end) "aggregate" = Some (TStr, VStr (Composition_Aggregate c), omit)) by (destruct c; eexists; reflexivity). destruct F as (omit & F).
  assert (Z : reify_Composition c = VStruct (match reify_Composition c with VStruct vs => vs | _ => [] end)) by (destruct c; reflexivity). rewrite Z in X.
  destruct (member_of "Composition" _ x "aggregate" y _ _ _ eq_refl eq_refl X M F) as (_ & Y). apply enc_text in Y. subst y.
  destruct newer_tables as (_ & K & _ & T). rewrite forallb_forall in T. specialize (T _ V). cbn [fst] in T. apply Z.leb_le in L as L'. rewrite L' in T.
  assert (O : in_open_enum composition_aggregates v1_3 sv (Composition_Aggregate c) = true) by (destruct Q as [(H & ->)|(_ & ->)]; [exact H|apply (fallbacks_defined sv), L]).
  destruct (newer_allowed composition_aggregates v1_3 "compositions" "aggregate" [] sv d _ T K O A) as [B|(w & v & [] & _)]. exact B.
Qed.
(** A type of an external reference (of the document, of components or services at any depth)
    or an aggregate that 1.7 lists is one that the version lists, but for seven types. *)
Theorem C50_json_newer_words_partial : forall sv d b esc o, In (sv, d) versions -> json_encode_version esc sv b = Ok o ->
  (forall r y, site (erase o) "externalReference" r -> sub r "type" y -> allowed schema_1_7 "externalReference" "type" y ->
     allowed d "externalReference" "type" y \/ exists w v, In (w, v) unnoticed /\ sv < v /\ y = JStr w) /\
  (forall c y, item (erase o) "compositions" c -> sub c "aggregate" y -> allowed schema_1_7 "compositions" "aggregate" y -> allowed d "compositions" "aggregate" y).
Proof.
  intros sv d b esc o V E. destruct (version_written esc sv b o E) as (B & X). split.
  - intros r y S M A. destruct (reference_site sv d B (erase o) r V X S) as (p & p' & q & D & I & Y). exact (reference_word sv d p p' q r y V D I Y M A).
  - intros c y S M A. exact (aggregate_word sv d B (erase o) c y V X S M A).
Qed.
(** For each of the seven, and every version from 1.2 on that does not list it: a BOM, decoded
    from JSON, that is written with it. *)
Definition referring (w : string) : json :=
  JObj [("specVersion", JStr "1.7"); ("externalReferences", JArr [JObj [("type", JStr w); ("url", JStr "u")]])].
Definition refers (sv : SpecVersion) (w : string) : bool :=
  match bom_of_json (referring w) zero_BOM with
  | Ok b => match json_encode_version true sv b with
            | Ok o => match first_of "externalReferences" (erase o) with
                      | Some r => match get "type" r with Some (JStr w') => String.eqb w' w | _ => false end
                      | None => false
                      end
            | Err _ => false
            end
  | Err _ => false
  end.
Lemma all_refer : forallb (fun m => forallb (fun u => if fst m <? snd u then refers (fst m) (fst u) && listing (snd m) "externalReference" "type" && negb (mem (fst u) (words_of (snd m) "externalReference" "type")) && word_ok schema_1_7 "externalReference" "type" (fst u) else true) unnoticed) versions = true.
Proof. vm_compute. reflexivity. Qed.
Lemma refers_written sv w : refers sv w = true -> exists b o r, bom_of_json (referring w) zero_BOM = Ok b /\ json_encode_version true sv b = Ok o /\ site (erase o) "externalReference" r /\ sub r "type" (JStr w).
Proof.
  unfold refers. destruct (bom_of_json (referring w) zero_BOM) as [b|]; [|discriminate]. destruct (json_encode_version true sv b) as [o|] eqn:E; [|discriminate]. destruct (first_of "externalReferences" (erase o)) as [r|] eqn:F; [|discriminate].
  destruct (get "type" r) as [y|] eqn:G; [|discriminate]. destruct y as [| | |w'| | ]; try discriminate. intros Q. apply String.eqb_eq in Q. subst w'. exists b, o, r. split; [reflexivity|]. split; [exact E|].
  split; [|exact (get_sub _ _ _ G)]. refine (s_reference _ "" _ _ _ (s_document _) (first_item _ _ _ F)). left. reflexivity.
Qed.
Theorem C50_json_unnoticed_refuted : forall sv d w v, In (sv, d) versions -> In (w, v) unnoticed -> sv < v ->
  allowed schema_1_7 "externalReference" "type" (JStr w) /\ ~ allowed d "externalReference" "type" (JStr w) /\
  exists j b o r, bom_of_json j zero_BOM = Ok b /\ json_encode_version true sv b = Ok o /\ site (erase o) "externalReference" r /\ sub r "type" (JStr w).
Proof.
  intros sv d w v V I L. pose proof all_refer as R. rewrite forallb_forall in R. specialize (R _ V). cbn [fst snd] in R. rewrite forallb_forall in R. specialize (R _ I). cbn [fst snd] in R. apply Z.ltb_lt in L. rewrite L in R.
  apply andb_prop in R as (R & W). apply andb_prop in R as (R & N). apply andb_prop in R as (R & Q). split; [exact (word_allowed _ _ _ _ W)|]. split.
  - intros A. apply (allowed_listed d _ _ _ Q), mem_in in A. rewrite A in N. discriminate.
  - destruct (refers_written sv w R) as (b & o & r & D & E & S & M). exists (referring w), b, o, r. auto.
Qed.
(** The hypotheses are met: a reference of a type of 1.5 and a composition with an aggregate
    of 1.5, written for 1.4 with others. *)
Definition newer_doc : json :=
  JObj [("specVersion", JStr "1.7"); ("components", JArr [JObj [("type", JStr "library"); ("name", JStr "c"); ("externalReferences", JArr [JObj [("type", JStr "threat-model"); ("url", JStr "u")]])]]);
        ("compositions", JArr [JObj [("aggregate", JStr "incomplete_first_party_opensource_only")]])].
Example C50_json_newer_nonvacuous : exists b o c r k, bom_of_json newer_doc zero_BOM = Ok b /\ json_encode_version true SpecVersion1_4 b = Ok o /\
  item (erase o) "components" c /\ item c "externalReferences" r /\ get "type" r = Some (JStr "other") /\ word_ok schema_1_7 "externalReference" "type" "other" = true /\
  item (erase o) "compositions" k /\ get "aggregate" k = Some (JStr "unknown") /\ word_ok schema_1_7 "compositions" "aggregate" "unknown" = true.
Proof.
  do 5 eexists. split; [vm_compute; reflexivity|]. split; [vm_compute; reflexivity|]. split; [apply first_item; vm_compute; reflexivity|]. split; [apply first_item; vm_compute; reflexivity|].
  split; [vm_compute; reflexivity|]. split; [vm_compute; reflexivity|]. split; [apply first_item; vm_compute; reflexivity|]. split; vm_compute; reflexivity.
Qed.

Definition word_theorems := (C50_json_words_partial, C50_json_texts_partial, C50_json_other_words_refuted, C50_json_newer_words_partial, C50_json_unnoticed_refuted).
Print Assumptions word_theorems.
