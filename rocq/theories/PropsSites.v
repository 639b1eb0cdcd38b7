(** Property theorems for C49: what EncodeVersion writes as JSON for an old version is known to
    the official schema of that version. Which places of a document are covered is in
    SiteSpec.v; the schemas are in Schemas.v, translated from /repo/schema. *)
From Verif Require Import Base Types Univ TypeTable Wt Reify Consts LinkModel Version Numbers GobModel JsonModel JsonText JsonIO JsonTextMore JsonGrammar JsonGrammarProofs ConvertModel ConvertSpec SchemaSpec Schemas JsonBom JsonChoices SiteSpec SiteProofs PropsGrammar.
Local Open Scope string_scope.
Local Open Scope Z_scope.

Definition versions : list (SpecVersion * schemas) :=
  [(SpecVersion1_2, schema_1_2); (SpecVersion1_3, schema_1_3); (SpecVersion1_4, schema_1_4); (SpecVersion1_5, schema_1_5); (SpecVersion1_6, schema_1_6); (SpecVersion1_7, schema_1_7)].
(** The members that are written for versions whose schema does not define them: definition,
    member, and the first version whose schema defines it. *)
Definition early : list (string * string * SpecVersion) :=
  [ ("", "properties", SpecVersion1_5); ("", "signature", SpecVersion1_4); ("component", "signature", SpecVersion1_4);
    ("service", "tags", SpecVersion1_6); ("service", "signature", SpecVersion1_4); ("compositions", "signature", SpecVersion1_4) ].

Definition mem (k : string) (l : list string) : bool := existsb (String.eqb k) l.
Definition covered (sv : SpecVersion) (d : schemas) (n k : string) : bool :=
  mem k (defined d n) || existsb (fun g => String.eqb (fst g) k && (sv <? snd g)) (gates n) ||
  existsb (fun e => match e with (m, l, v) => String.eqb m n && String.eqb l k && (sv <? v) end) early.
Lemma all_covered : forallb (fun m => forallb (fun f => if since (fst f) <=? fst m then forallb (covered (fst m) (snd m) (fst f)) (names (snd f)) else true) fields_at) versions = true.
Proof. vm_compute. reflexivity. Qed.
Lemma version_one sv d : In (sv, d) versions -> v1_0 <= sv.
Proof. intros V. repeat (destruct V as [[= <- <-]|V]; [discriminate|]). contradiction V. Qed.
Lemma names_field n k : In k (names_at n) -> exists fs, In (n, fs) fields_at /\ In k (names fs).
Proof.
  unfold names_at. induction fields_at as [|[m fs] l IH]; cbn [assoc]; [intros []|]. destruct (String.eqb m n) eqn:N.
  - apply String.eqb_eq in N. subst. intros K. exists fs. split; [left; reflexivity|exact K].
  - intros K. destruct (IH K) as (fs' & I & K'). exists fs'. split; [right; exact I|exact K'].
Qed.

Lemma covers sv d n fs k : In (sv, d) versions -> In (n, fs) fields_at -> In k (names fs) -> since n <= sv -> covered sv d n k = true.
Proof.
  intros V F K L. pose proof all_covered as C. rewrite forallb_forall in C. specialize (C _ V). cbn [fst snd] in C. rewrite forallb_forall in C. specialize (C _ F). cbn [fst snd] in C.
  apply Z.leb_le in L. rewrite L in C. rewrite forallb_forall in C. exact (C k K).
Qed.
Lemma enc_intro esc t v o : jenc esc t v = Ok o -> enc t v (erase o).
Proof. intros E. exists esc, o. split; [exact E|reflexivity]. Qed.
Lemma document_written esc B o : json_encode esc B = Ok o -> enc (TRef "BOM") (reify_BOM B) (erase o).
Proof. intros E. apply encode_writes in E as (E & _). rewrite bom_to_json_eq in E. exact (enc_intro esc _ _ o E). Qed.
Lemma version_copied esc sv b o : json_encode_version esc sv b = Ok o -> exists c, copy b = Ok c.
Proof. unfold json_encode_version, copyAndConvert. destruct (copy b) as [c|e]; [intros _; exists c; reflexivity|]. cbn [bind]. discriminate. Qed.
Lemma version_written esc sv b o : json_encode_version esc sv b = Ok o -> exists c, enc (TRef "BOM") (reify_BOM (convert sv c)) (erase o).
Proof.
  intros E. destruct (version_copied esc sv b o E) as (c & C). rewrite (encode_version_eq esc sv b c C) in E. exists c. exact (document_written esc _ o E).
Qed.
Lemma covered_known sv d n k : covered sv d n k = true -> (forall v, In (k, v) (gates n) -> sv < v -> False) -> In k (defined d n) \/ exists v, In (n, k, v) early /\ sv < v.
Proof.
  unfold covered. generalize (gates n) early. intros gs es C G. apply orb_prop in C as [C|C]; [apply orb_prop in C as [C|C]|].
  - left. apply existsb_exists in C as (k' & I & Q). apply String.eqb_eq in Q. subst. exact I.
  - exfalso. apply existsb_exists in C as ((k', v) & I & Q). apply andb_prop in Q as (Q & Z). apply String.eqb_eq in Q. cbn [fst snd] in *. subst. apply Z.ltb_lt in Z. exact (G v I Z).
  - right. apply existsb_exists in C as (((m & l) & v) & I & Q). apply andb_prop in Q as (Q & Z). apply andb_prop in Q as (Q1 & Q2). apply String.eqb_eq in Q1, Q2. subst. apply Z.ltb_lt in Z. exists v. split; assumption.
Qed.

(** Whatever the BOM is, and whatever version from 1.2 on it is encoded for: at all those places
    every member that is written is one that the schema of the version defines there, but for
    the six that are listed. Missing from the full property: those six, and other places. *)
Theorem C49_json_version_partial : forall sv d b esc o n x k y, In (sv, d) versions -> json_encode_version esc sv b = Ok o -> site (erase o) n x -> sub x k y ->
  In k (defined d n) \/ exists v, In (n, k, v) early /\ sv < v.
Proof.
  intros sv d b esc o n x k y V E S M. destruct (version_written esc sv b o E) as (c & X).
  destruct (site_members sv c (erase o) n x k y X S M) as (G & K & L). specialize (L (version_one sv d V)). destruct (names_field n k K) as (fs & F & K').
  exact (covered_known sv d n k (covers sv d n fs k V F K' L) G).
Qed.
(** The same for the texts that are written *)
Lemma text_copied pretty esc sv b t : json_encode_version_text pretty esc sv b = Ok t -> exists c, copy b = Ok c.
Proof. unfold json_encode_version_text, copyAndConvert. destruct (copy b) as [c|e]; [intros _; exists c; reflexivity|]. cbn [bind]. discriminate. Qed.
Theorem C49_json_texts_partial : forall sv d b pretty esc t, In (sv, d) versions -> json_encode_version_text pretty esc sv b = Ok t ->
  exists j, document t j /\ forall n x k y, site j n x -> sub x k y -> In k (defined d n) \/ exists v, In (n, k, v) early /\ sv < v.
Proof.
  intros sv d b pretty esc t V E. destruct (text_copied pretty esc sv b t E) as (c & C). rewrite (version_text_eq pretty esc sv b c C) in E.
  apply C40_json_written in E as (o & Eo & D). exists (erase o). split; [exact D|]. intros n x k y. rewrite <- (encode_version_eq esc sv b c C) in Eo. exact (C49_json_version_partial sv d b esc o n x k y V Eo).
Qed.

(** The exceptions are real: for each of the six, and every version that has a place for it
    and whose schema does not define it, there is a BOM, decoded from JSON, that is written
    with that member. (Compositions are written from 1.3 on.) *)
Definition early_witnesses : list (string * string * json) :=
  let props := JArr [JObj [("name", JStr "n"); ("value", JStr "v")]] in let signature := JObj [("algorithm", JStr "ES256"); ("value", JStr "x")] in
  let bom k j := JObj [("specVersion", JStr "1.7"); (k, j)] in let one k j := JArr [JObj [("name", JStr "n"); (k, j)]] in
  [ ("", "properties", bom "properties" props);
    ("", "signature", bom "signature" signature);
    ("component", "signature", bom "components" (one "signature" signature));
    ("service", "tags", bom "services" (one "tags" (JArr [JStr "t"])));
    ("service", "signature", bom "services" (one "signature" signature));
    ("compositions", "signature", bom "compositions" (JArr [JObj [("aggregate", JStr "complete"); ("signature", signature)]])) ].
Definition has (k : string) (j : json) : bool := match j with JObj ms => mem k (map fst ms) | _ => false end.
Definition first_of (k : string) (j : json) : option json :=
  match j with JObj ms => match assoc k ms with Some (JArr (x :: _)) => Some x | _ => None end | _ => None end.
Definition section (n : string) : string := if String.eqb n "component" then "components" else if String.eqb n "service" then "services" else "compositions".
Definition shows (n k : string) (doc : json) : bool :=
  if String.eqb n "" then has k doc else match first_of (section n) doc with Some x => has k x | None => false end.
Lemma has_sub k j : has k j = true -> exists y, sub j k y.
Proof.
  destruct j as [| | | | |ms]; try discriminate. cbn [has]. unfold mem. intros H. apply existsb_exists in H as (k' & I & Q). apply String.eqb_eq in Q. subst k'. apply in_map_iff in I as ((k', y) & [= ->] & I). exists y, ms. split; [reflexivity|exact I].
Qed.
Lemma assoc_pair {A} n (l : list (string * A)) x : assoc n l = Some x -> In (n, x) l.
Proof. induction l as [|[k a] l IH]; cbn [assoc]; [discriminate|]. destruct (String.eqb k n) eqn:Q; [apply String.eqb_eq in Q; intros [= <-]; subst; left; reflexivity|intros E; right; exact (IH E)]. Qed.
Lemma first_item k j x : first_of k j = Some x -> item j k x.
Proof.
  destruct j as [| | | | |ms]; try discriminate. cbn [first_of]. destruct (assoc k ms) as [y|] eqn:E; [|discriminate]. destruct y as [| | | |[|z l]|]; try discriminate. intros [= <-].
  exists (z :: l). split; [exists ms; split; [reflexivity|exact (assoc_pair _ _ _ E)]|left; reflexivity].
Qed.
Lemma shows_site n k doc : In n [""; "component"; "service"; "compositions"] -> shows n k doc = true -> exists x y, site doc n x /\ sub x k y.
Proof.
  intros N H. unfold shows in H. destruct N as [<-|N]; [destruct (has_sub k doc H) as (y & S); exists doc, y; split; [apply s_document|exact S]|].
  destruct (String.eqb n "") eqn:Q; [apply String.eqb_eq in Q; subst n; repeat (destruct N as [N|N]; [discriminate N|]); contradiction N|].
  destruct (first_of (section n) doc) as [x|] eqn:F; [|discriminate]. apply first_item in F. destruct (has_sub k x H) as (y & S). exists x, y. split; [|exact S].
  destruct N as [<-|[<-|[<-|[]]]]; [apply s_component|apply s_service|apply s_composition]; exact F.
Qed.
Definition written_early (sv : SpecVersion) (n k : string) (w : json) : bool :=
  match bom_of_json w zero_BOM with
  | Ok b => match json_encode_version true sv b with Ok o => shows n k (erase o) | Err _ => false end
  | Err _ => false
  end.
Definition has_place (sv : SpecVersion) (n : string) : bool := if String.eqb n "compositions" then SpecVersion1_3 <=? sv else true.
Lemma all_written_early : forallb (fun m => forallb (fun e => match e with (n, k, v) =>
    if (fst m <? v) && has_place (fst m) n then negb (mem k (defined (snd m) n)) && mem n [""; "component"; "service"; "compositions"] && existsb (fun w => match w with (n', k', w') => String.eqb n' n && String.eqb k' k && written_early (fst m) n k w' end) early_witnesses else true end) early) versions = true.
Proof. vm_compute. reflexivity. Qed.
Lemma mem_in k l : mem k l = true <-> In k l.
Proof. unfold mem. rewrite existsb_exists. split; [intros (x & I & Q); apply String.eqb_eq in Q; subst; exact I|intros I; exists k; split; [exact I|apply String.eqb_refl]]. Qed.
Lemma written_early_shows sv n k w : written_early sv n k w = true -> exists b o, bom_of_json w zero_BOM = Ok b /\ json_encode_version true sv b = Ok o /\ shows n k (erase o) = true.
Proof.
  unfold written_early. destruct (bom_of_json w zero_BOM) as [b|]; [|discriminate]. destruct (json_encode_version true sv b) as [o|] eqn:E; [|discriminate]. intros H. exists b, o. split; [reflexivity|]. split; [exact E|exact H].
Qed.
Theorem C49_json_early_refuted : forall sv d n k v, In (sv, d) versions -> In (n, k, v) early -> sv < v -> (n = "compositions" -> SpecVersion1_3 <= sv) ->
  ~ In k (defined d n) /\ exists j b o x y, bom_of_json j zero_BOM = Ok b /\ json_encode_version true sv b = Ok o /\ site (erase o) n x /\ sub x k y.
Proof.
  intros sv d n k v V I L P. pose proof all_written_early as W. rewrite forallb_forall in W. specialize (W _ V). cbn [fst snd] in W. rewrite forallb_forall in W. specialize (W _ I). cbv beta iota in W.
  assert (Q : ((sv <? v) && has_place sv n)%bool = true).
  { apply andb_true_intro. split; [apply Z.ltb_lt, L|]. unfold has_place. destruct (String.eqb n "compositions") eqn:N; [apply String.eqb_eq in N; apply Z.leb_le, (P N)|reflexivity]. }
  rewrite Q in W. apply andb_prop in W as (W & X). apply andb_prop in W as (W & N). split; [intros K; apply mem_in in K; rewrite K in W; discriminate|].
  apply existsb_exists in X as (((n' & k') & w) & _ & X). apply andb_prop in X as (_ & X). apply written_early_shows in X as (b & o & D & E & S). apply mem_in in N.
  destruct (shows_site n k (erase o) N S) as (x & y & T & U). exists w, b, o, x, y. auto.
Qed.
(** Two of the places that are not covered: the supplier of a component keeps its address, the
    licenses of a service keep what 1.4 does not know. *)
Definition two_places : json :=
  JObj [("specVersion", JStr "1.7");
        ("components", JArr [JObj [("name", JStr "c"); ("supplier", JObj [("name", JStr "s"); ("address", JObj [("country", JStr "x")])])]]);
        ("services", JArr [JObj [("name", JStr "s"); ("licenses", JArr [JObj [("license", JObj [("id", JStr "MIT"); ("acknowledgement", JStr "declared")])]])]])].
Definition get (k : string) (j : json) : option json := match j with JObj ms => assoc k ms | _ => None end.
Lemma get_sub k j x : get k j = Some x -> sub j k x.
Proof. destruct j as [| | | | |ms]; try discriminate. intros E. exists ms. split; [reflexivity|exact (assoc_pair _ _ _ E)]. Qed.
Theorem C49_json_other_places_refuted : exists b o c s a l e i k, bom_of_json two_places zero_BOM = Ok b /\ json_encode_version true SpecVersion1_4 b = Ok o /\
  item (erase o) "components" c /\ sub c "supplier" s /\ sub s "address" a /\ ~ In "address" (defined schema_1_4 "organizationalEntity") /\
  item (erase o) "services" l /\ item l "licenses" e /\ sub e "license" i /\ sub i "acknowledgement" k /\ ~ In "acknowledgement" (defined schema_1_4 "license").
Proof.
  do 9 eexists. split; [vm_compute; reflexivity|]. split; [vm_compute; reflexivity|].
  split; [apply first_item; vm_compute; reflexivity|]. split; [apply get_sub; vm_compute; reflexivity|]. split; [apply get_sub; vm_compute; reflexivity|].
  split; [rewrite <- mem_in; vm_compute; discriminate|]. split; [apply first_item; vm_compute; reflexivity|]. split; [apply first_item; vm_compute; reflexivity|].
  split; [apply get_sub; vm_compute; reflexivity|]. split; [apply get_sub; vm_compute; reflexivity|]. rewrite <- mem_in. vm_compute. discriminate.
Qed.

(** The hypotheses are met: a BOM with components within the pedigree of a component, written
    for 1.4, where a member that 1.4 does not know is gone at every one of them. *)
Definition deep_doc : json :=
  let c name more := JObj (("name", JStr name) :: ("type", JStr "library") :: ("tags", JArr [JStr "t"]) :: ("releaseNotes", JObj [("type", JStr "major")]) :: more) in
  JObj [("specVersion", JStr "1.7"); ("metadata", JObj [("component", c "m" [])]); ("components", JArr [c "a" [("pedigree", JObj [("ancestors", JArr [c "b" [("components", JArr [c "d" []])]])])]])].
Example C49_json_nonvacuous : exists b o a p c d y, bom_of_json deep_doc zero_BOM = Ok b /\ json_encode_version true SpecVersion1_4 b = Ok o /\
  item (erase o) "components" a /\ sub a "pedigree" p /\ item p "ancestors" c /\ item c "components" d /\ site (erase o) "component" d /\ sub d "releaseNotes" y /\ get "tags" d = None /\
  In "releaseNotes" (defined schema_1_4 "component") /\ ~ In "tags" (defined schema_1_4 "component").
Proof.
  do 7 eexists. split; [vm_compute; reflexivity|]. split; [vm_compute; reflexivity|].
  match goal with |- ?A /\ ?P /\ ?C /\ ?D /\ ?S /\ ?R => assert (Q : A /\ P /\ C /\ D) end.
  { split; [apply first_item; vm_compute; reflexivity|]. split; [apply get_sub; vm_compute; reflexivity|]. split; apply first_item; vm_compute; reflexivity. }
  destruct Q as (A & P & C & D). split; [exact A|]. split; [exact P|]. split; [exact C|]. split; [exact D|].
  split; [refine (s_nested _ _ _ _ D); refine (s_pedigree _ _ _ _ _ _ P (or_introl eq_refl) C); exact (s_component _ _ A)|].
  split; [apply get_sub; vm_compute; reflexivity|]. split; [vm_compute; reflexivity|]. split; [rewrite <- mem_in; vm_compute; reflexivity|]. rewrite <- mem_in. vm_compute. discriminate.
Qed.

Definition site_theorems := (C49_json_version_partial, C49_json_texts_partial, C49_json_early_refuted, C49_json_other_places_refuted).
Print Assumptions site_theorems.
