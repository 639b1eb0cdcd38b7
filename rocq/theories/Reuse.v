(** Decoding into a BOM that already holds data: for C39. *)
From Verif Require Import Base Types Univ TypeTable Wt ReifyBase Reify ReifyFacts Consts Version VersionProofs ConvertSpec JsonModel JsonProofs XmlModel XmlTable XmlNs.
From Coq Require Import Lia.
Local Open Scope string_scope.

(** ** JSON *)
Lemma find_index_spec {A} (p : A -> bool) l : forall i, find_index p l = Some i -> exists x, nth_error l i = Some x /\ p x = true.
Proof.
  induction l as [|x l IH]; intros i H; [discriminate|]. cbn [find_index] in H. destruct (p x) eqn:P.
  - injection H as <-. exists x. auto.
  - destruct (find_index p l) as [j|]; [|discriminate]. injection H as <-. exact (IH j eq_refl).
Qed.
Lemma find_field_spec fs k i : find_field fs k = Some i -> exists f n om, nth_error fs i = Some f /\ json_info f = Some (n, om) /\ fold_name n = fold_name k.
Proof.
  unfold find_field. set (P := find_index _ fs). destruct P as [j|] eqn:E; unfold P in E; clear P.
  - intros [= <-]. apply find_index_spec in E as (f & N & H). exists f. destruct (json_info f) as [[n om]|]; [|discriminate H]. apply String.eqb_eq in H. subst. exists n, om. auto.
  - intros F. apply find_index_spec in F as (f & N & H). exists f. destruct (json_info f) as [[n om]|]; [|discriminate H]. apply String.eqb_eq in H. exists n, om. auto.
Qed.
Definition names_field (f : field) (k : string) : Prop := exists n om, json_info f = Some (n, om) /\ fold_name n = fold_name k.
Lemma members_keep fs i f : nth_error fs i = Some f -> forall ms cur cur' err, (forall k m, In (k, m) ms -> ~ names_field f k) ->
  dec_members ms fs cur = inl (cur', err) -> nth_error cur' i = nth_error cur i.
Proof.
  intros F. induction ms as [|(k & m) ms IH]; intros cur cur' err N H; cbn [dec_members] in H; [injection H as <- <-; reflexivity|].
  assert (N' : forall k m, In (k, m) ms -> ~ names_field f k) by (intros k' m' I; apply (N k' m'); right; exact I).
  destruct (find_field fs k) as [j|] eqn:J; [|exact (IH _ _ _ N' H)].
  apply find_field_spec in J as (g & n & om & G & Jg & Q). rewrite G in H. destruct (nth_error cur j) as [c|]; [|exact (IH _ _ _ N' H)].
  destruct (m_dec m (f_ty g) c) as [v e|]; [|discriminate H]. destruct (dec_members ms fs (set_nth j v cur)) as [[c' e']|] eqn:D; [|discriminate H]. injection H as <- <-.
  rewrite (IH _ _ _ N' D). apply set_nth_other. intros ->. apply (N k m); [left; reflexivity|]. exists n, om. split; congruence.
Qed.
Lemma members_length fs : forall ms cur cur' err, dec_members ms fs cur = inl (cur', err) -> length cur' = length cur.
Proof.
  induction ms as [|(k & m) ms IH]; intros cur cur' err H; cbn [dec_members] in H; [injection H as <- <-; reflexivity|].
  destruct (find_field fs k) as [j|]; [|exact (IH _ _ _ H)]. destruct (nth_error fs j) as [g|]; [|exact (IH _ _ _ H)]. destruct (nth_error cur j) as [c|]; [|exact (IH _ _ _ H)].
  destruct (m_dec m (f_ty g) c) as [v e|]; [|discriminate H]. destruct (dec_members ms fs (set_nth j v cur)) as [[c' e']|] eqn:D; [|discriminate H]. injection H as <- <-.
  rewrite (IH _ _ _ D). apply set_nth_length.
Qed.
Lemma set_nth_here (i : nat) : forall (v : val) l c, nth_error l i = Some c -> nth_error (set_nth i v l) i = Some v.
Proof. induction i as [|i IH]; intros v [|x l] c H; try discriminate; cbn; eauto. Qed.
(** A field depends on the members and on its own old value only. *)
Lemma members_own fs i : forall ms cur1 cur2 c1 e1 c2 e2, nth_error cur1 i = nth_error cur2 i -> length cur1 = length cur2 ->
  dec_members ms fs cur1 = inl (c1, e1) -> dec_members ms fs cur2 = inl (c2, e2) -> nth_error c1 i = nth_error c2 i.
Proof.
  induction ms as [|(k & m) ms IH]; intros cur1 cur2 c1 e1 c2 e2 E L H1 H2; cbn [dec_members] in H1, H2; [injection H1 as <- <-; injection H2 as <- <-; exact E|].
  destruct (find_field fs k) as [j|]; [|eapply IH; eassumption]. destruct (nth_error fs j) as [g|]; [|eapply IH; eassumption].
  destruct (nth_error cur1 j) as [a|] eqn:N1, (nth_error cur2 j) as [b|] eqn:N2.
  2: apply nth_error_None in N2; assert (j < length cur1)%nat by (apply nth_error_Some; congruence); lia.
  2: apply nth_error_None in N1; assert (j < length cur2)%nat by (apply nth_error_Some; congruence); lia.
  2: eapply IH; eassumption.
  destruct (m_dec m (f_ty g) a) as [v1 x1|] eqn:D1; [|discriminate H1]. destruct (dec_members ms fs (set_nth j v1 cur1)) as [[c1' e1']|] eqn:M1; [|discriminate H1]. injection H1 as <- <-.
  destruct (m_dec m (f_ty g) b) as [v2 x2|] eqn:D2; [|discriminate H2]. destruct (dec_members ms fs (set_nth j v2 cur2)) as [[c2' e2']|] eqn:M2; [|discriminate H2]. injection H2 as <- <-.
  eapply IH; [| |exact M1|exact M2]; [|rewrite !set_nth_length; exact L].
  destruct (Nat.eq_dec j i) as [->|J]; [|rewrite !set_nth_other by exact J; exact E].
  assert (a = b) by congruence. subst b. rewrite D1 in D2. injection D2 as <- _. rewrite (set_nth_here i v1 cur1 a N1), (set_nth_here i v1 cur2 a N2). reflexivity.
Qed.

Definition bom_values (b : BOM) : list val := fields_of_val (reify_BOM b).
Definition members_of (j : json) : list (string * json) := match j with JObj ms => ms | _ => [] end.
Lemma bom_dec j b c : bom_of_json j b = Ok c ->
  exists vs err, dec_members (map (fun m => (fst m, mkMember (is_null (snd m)) (jdec (snd m)))) (members_of j)) fields_BOM (bom_values b) = inl (vs, err) /\ c = reflect_BOM (VStruct vs) /\ length vs = 21%nat.
Proof.
  unfold bom_of_json. destruct (too_deep j); [discriminate|]. intros H. apply bind_ok in H as (v & F & Q). injection Q as <-.
  assert (G : exists vs err, dec_members (map (fun m => (fst m, mkMember (is_null (snd m)) (jdec (snd m)))) (members_of j)) fields_BOM (bom_values b) = inl (vs, err) /\ v = VStruct vs).
  { destruct j as [|x|x|x|l|ms]; try discriminate F.
    - exists (bom_values b), None. split; [reflexivity|]. injection F as <-. reflexivity.
    - cbn [jdec members_of JsonModel.node] in *. change (unmarshal_hook (TRef "BOM")) with HNone in F. cbv iota in F. unfold plain in F. change (kind_of (TRef "BOM")) with (KStruct fields_BOM) in F. cbn [JsonModel.dec_struct] in F.
      change (fields_of_val (reify_BOM b)) with (bom_values b) in F. destruct (dec_members _ fields_BOM (bom_values b)) as [[vs err]|]; [|discriminate F]. exists vs, err. split; [reflexivity|].
      unfold finish in F. destruct err; [discriminate F|]. congruence. }
  destruct G as (vs & err & D & ->). exists vs, err. split; [exact D|]. split; [reflexivity|]. rewrite (members_length _ _ _ _ _ D). reflexivity.
Qed.
Ltac listing vs L := do 21 (destruct vs as [|? vs]; [discriminate L|]); destruct vs; [|discriminate L]; clear L.
(** Fields whose values agree. *)
Lemma json_keep j b c : bom_of_json j b = Ok c -> exists vs, c = reflect_BOM (VStruct vs) /\ length vs = 21%nat /\
  forall i f, nth_error fields_BOM i = Some f -> (forall k, In k (map fst (members_of j)) -> ~ names_field f k) -> nth_error vs i = nth_error (bom_values b) i.
Proof.
  intros H. apply bom_dec in H as (vs & err & D & E & L). exists vs. split; [exact E|]. split; [exact L|]. intros i f F N. refine (members_keep _ _ _ F _ _ _ _ _ D).
  intros k m I. apply in_map_iff in I as ((k' & m') & [= <- _] & I). apply N. apply in_map_iff. exists (k', m'). auto.
Qed.
Lemma json_own j b1 b2 c1 c2 : bom_of_json j b1 = Ok c1 -> bom_of_json j b2 = Ok c2 -> exists vs1 vs2, c1 = reflect_BOM (VStruct vs1) /\ c2 = reflect_BOM (VStruct vs2) /\
  length vs1 = 21%nat /\ length vs2 = 21%nat /\ forall i, nth_error (bom_values b1) i = nth_error (bom_values b2) i -> nth_error vs1 i = nth_error vs2 i.
Proof.
  intros H1 H2. apply bom_dec in H1 as (vs1 & e1 & D1 & E1 & L1). apply bom_dec in H2 as (vs2 & e2 & D2 & E2 & L2). exists vs1, vs2. repeat (split; [assumption|]).
  intros i E. exact (members_own _ _ _ _ _ _ _ _ _ E eq_refl D1 D2).
Qed.

(** The last member of a name decides. *)
Lemma members_last fs i f k m post : find_field fs k = Some i -> nth_error fs i = Some f -> (forall k' m', In (k', m') post -> ~ names_field f k') ->
  forall pre cur cur' err, (i < length cur)%nat -> dec_members (pre ++ (k, m) :: post) fs cur = inl (cur', err) -> exists c v e, m_dec m (f_ty f) c = DVal v e /\ nth_error cur' i = Some v.
Proof.
  intros F N P. induction pre as [|(k1 & m1) pre IH]; intros cur cur' err L H; cbn [app dec_members] in H.
  - rewrite F, N in H. destruct (nth_error cur i) as [c|] eqn:C; [|apply nth_error_None in C; lia]. destruct (m_dec m (f_ty f) c) as [v e|] eqn:D; [|discriminate H].
    destruct (dec_members post fs (set_nth i v cur)) as [(c' & e')|] eqn:M; [|discriminate H]. injection H as <- <-. exists c, v, e. split; [exact D|].
    rewrite (members_keep fs i f N post _ _ _ P M). exact (set_nth_here i v cur c C).
  - destruct (find_field fs k1) as [j|]; [|exact (IH _ _ _ L H)]. destruct (nth_error fs j) as [g|]; [|exact (IH _ _ _ L H)]. destruct (nth_error cur j) as [x|]; [|exact (IH _ _ _ L H)].
    destruct (m_dec m1 (f_ty g) x) as [v e|]; [|discriminate H]. destruct (dec_members (pre ++ (k, m) :: post) fs (set_nth j v cur)) as [(c' & e')|] eqn:M; [|discriminate H]. injection H as <- <-.
    eapply IH; [|exact M]. rewrite set_nth_length. exact L.
Qed.
Definition last_member (j : json) (name : string) (v : json) : Prop :=
  exists pre k post, j = JObj (pre ++ (k, v) :: post) /\ fold_name k = fold_name name /\ forall k' v', In (k', v') post -> fold_name k' <> fold_name name.
Lemma json_last j b c : bom_of_json j b = Ok c -> exists vs, c = reflect_BOM (VStruct vs) /\ length vs = 21%nat /\
  forall i f n om w, nth_error fields_BOM i = Some f -> json_info f = Some (n, om) -> (forall k, fold_name k = fold_name n -> find_field fields_BOM k = Some i) -> last_member j n w ->
    exists x v e, jdec w (f_ty f) x = DVal v e /\ nth_error vs i = Some v.
Proof.
  intros H. apply bom_dec in H as (vs & err & D & E & L). exists vs. split; [exact E|]. split; [exact L|]. intros i f n om w F J FF (pre & k & post & -> & K & P).
  cbn [members_of] in D. rewrite map_app in D. cbn [map] in D.
  assert (LL : (i < length (bom_values b))%nat) by (rewrite <- (members_length _ _ _ _ _ D), L; change 21%nat with (length fields_BOM); apply nth_error_Some; congruence).
  assert (NP : forall k' m', In (k', m') (map (fun m => (fst m, mkMember (is_null (snd m)) (jdec (snd m)))) post) -> ~ names_field f k').
  { intros k' m' I (n' & om' & J' & Q). apply in_map_iff in I as ((k2 & w2) & [= -> _] & I). assert (n' = n) by congruence. subst n'. exact (P k' w2 I (eq_sym Q)). }
  destruct (members_last fields_BOM i f k _ _ (FF k K) F NP _ _ _ _ LL D) as (x & v & e & X & V). exists x, v, e. split; [exact X|exact V].
Qed.
Lemma elements_length t : forall ds cur l e, dec_elements ds t cur = inl (l, e) -> length l = length ds.
Proof.
  induction ds as [|d ds IH]; intros cur l e H; cbn [dec_elements] in H; [injection H as <- <-; reflexivity|].
  destruct (d t (hd (zero_of t) cur)) as [v ev|]; [|discriminate]. destruct (dec_elements ds t (tl cur)) as [(l' & e')|] eqn:E; [|discriminate]. injection H as <- <-. cbn [length]. f_equal. exact (IH _ _ _ E).
Qed.
Lemma array_length l t x v e : jdec (JArr l) (TPtr (TSlice t)) x = DVal v e -> length (match v with VPtr (Some y) => list_of_slice y | _ => [] end) = length l.
Proof.
  cbn [jdec JsonModel.node]. change (unmarshal_hook (TSlice t)) with HNone. cbv iota. unfold plain. change (kind_of (TSlice t)) with (KSlice t). cbv iota.
  destruct (dec_elements (map jdec l) t _) as [(ls & es)|] eqn:E; [|discriminate]. intros [= <- <-]. cbn [some_ptr list_of_slice]. rewrite (elements_length _ _ _ _ _ E). apply map_length.
Qed.
Lemma null_pointer t x v e : jdec JNull (TPtr t) x = DVal v e -> v = VPtr None.
Proof. cbn [jdec JsonModel.node]. congruence. Qed.

(** ** XML *)
(** The element of the document that a field is read from. *)
Definition top (f : field) : option string :=
  match xml_info f with Some (mkX XElement ps n _) => Some (match ps with [] => n | p :: _ => p end) | _ => None end.
Lemma place_top parent local i f p : place_of parent local i f = Some p ->
  top f = Some (match parent with Some q => q | None => local end) /\ match p with Here j => j = i | Inside q => parent = None /\ q = local end.
Proof.
  unfold place_of, top. destruct (xml_info f) as [[[] ps n o]|]; try discriminate. destruct parent as [q|], ps as [|p1 [|p2 ps]]; try discriminate.
  - destruct (String.eqb_spec p1 q); [|discriminate]. destruct (String.eqb n local); [|discriminate]. cbn [andb]. intros [= <-]. split; [congruence|reflexivity].
  - destruct (String.eqb_spec n local); [|discriminate]. intros [= <-]. split; [congruence|reflexivity].
  - destruct (String.eqb_spec p1 local); [|discriminate]. intros [= <-]. split; [congruence|]. auto.
  - destruct (String.eqb_spec p1 local); [|discriminate]. intros [= <-]. split; [congruence|]. auto.
Qed.
Lemma find_top fs : forall parent local k p, find_place parent local k fs = Some p ->
  match p with
  | Here j => exists f, nth_error fs (j - k) = Some f /\ (k <= j)%nat /\ top f = Some (match parent with Some q => q | None => local end)
  | Inside q => q = local
  end.
Proof.
  induction fs as [|f fs IH]; intros parent local k p H; [discriminate|]. cbn [find_place] in H. destruct (place_of parent local k f) as [p'|] eqn:P.
  - injection H as ->. apply place_top in P as (T & P). destruct p as [j|q]; [|apply P]. subst j. exists f. rewrite Nat.sub_diag. auto.
  - apply IH in H. destruct p as [j|q]; [|exact H]. destruct H as (g & G & L & E). exists g. split; [|split; [lia|exact E]]. replace (j - k)%nat with (Datatypes.S (j - Datatypes.S k)) by lia. exact G.
Qed.
Lemma at_keeps fs i f j dec d cur cur' : nth_error fs i = Some f -> (exists g, nth_error fs j = Some g /\ top g <> top f) -> dec_at fs j dec d cur = Ok cur' -> kept fs i cur cur'.
Proof.
  intros F (g & G & N) H. unfold dec_at in H. rewrite G in H. destruct (nth_error cur j) as [c|]; [|discriminate]. apply bind_ok in H as (v & _ & Q). injection Q as <-.
  split; [apply set_nth_length|]. apply set_nth_other. intros ->. apply N. congruence.
Qed.
Lemma inside_other fs i f p d : nth_error fs i = Some f -> top f <> Some p -> forall ks cur cur', dec_inside fs p d ks cur = Ok cur' -> kept fs i cur cur'.
Proof.
  intros F E. induction ks as [|[s|sp l a inner dec] ks IH]; intros cur cur' H; cbn [dec_inside] in H; [injection H as <-; apply kept_refl|apply IH, H|].
  apply bind_ok in H as (c & C & H). apply IH in H. eapply kept_trans; [|exact H].
  destruct (find_place (Some p) l 0 fs) as [[j|q]|] eqn:P; [|injection C as <-; apply kept_refl|injection C as <-; apply kept_refl].
  apply find_top in P as (g & G & _ & T). rewrite Nat.sub_0_r in G. eapply at_keeps; [exact F| |exact C]. exists g. split; [exact G|congruence].
Qed.
Definition named (l : string) (k : kid) : Prop := match k with KElem _ l' _ _ _ => l' = l | KText _ => False end.
Lemma kids_other fs i f d : nth_error fs i = Some f -> forall ks cur cur', (forall l, top f = Some l -> ~ exists k, In k ks /\ named l k) -> dec_kids fs d ks cur = Ok cur' -> kept fs i cur cur'.
Proof.
  intros F. induction ks as [|[s|sp l a inner dec] ks IH]; intros cur cur' N H; cbn [dec_kids] in H; [injection H as <-; apply kept_refl| |].
  - apply IH; [|exact H]. intros l T (k & I & M). apply (N l T). exists k. split; [right; exact I|exact M].
  - apply bind_ok in H as (c & C & H). apply IH in H; [|intros l' T (k & I & M); apply (N l' T); exists k; split; [right; exact I|exact M]]. eapply kept_trans; [|exact H].
    assert (NT : top f <> Some l) by (intros T; apply (N l T); eexists; split; [left; reflexivity|reflexivity]).
    destruct (find_place None l 0 fs) as [[j|q]|] eqn:P; [| |injection C as <-; apply kept_refl].
    + apply find_top in P as (g & G & _ & T). rewrite Nat.sub_0_r in G. eapply at_keeps; [exact F| |exact C]. exists g. split; [exact G|congruence].
    + apply find_top in P. subst q. eapply inside_other; eassumption.
Qed.
Lemma attrs_other fs i f : nth_error fs i = Some f -> forall attrs cur cur', (forall n s, In (n, s) attrs -> is_attr n f = false) -> set_attrs fs attrs cur = Ok cur' -> kept fs i cur cur'.
Proof.
  intros F. induction attrs as [|(n & s) attrs IH]; intros cur cur' N H; cbn [set_attrs] in *; [injection H as <-; apply kept_refl|].
  apply bind_ok in H as (c & Hc & H). eapply kept_trans; [|eapply IH, H; intros n' s' I; apply (N n' s'); right; exact I]. eapply attr_keeps; eauto. apply (N n s). left. reflexivity.
Qed.

(** Lists grow by what the document has, whatever they hold before. *)
Definition list_at (v : option val) : list val := match v with Some (VPtr (Some x)) => list_of_slice x | _ => [] end.
Lemma elem_grows {Lim : Limit} sp l a ks t d c v : dec_elem sp l a ks (TPtr (TSlice t)) d c = Ok v ->
  exists x, forall c' v', dec_elem sp l a ks (TPtr (TSlice t)) d c' = Ok v' -> list_at (Some v') = (list_at (Some c') ++ [x])%list.
Proof.
  unfold dec_elem. destruct (limit <=? d)%N; [discriminate|]. cbn [kind_of kind_base]. unfold dec_slice. change (unmarshaler (TSlice t)) with MNone. cbn [kind_of kind_base].
  destruct (limit <=? N.succ d)%N; [discriminate|]. destruct (dec_value sp l a ks t (N.succ d) (zero_of t)) as [x|e]; [|discriminate]. intros _. exists x. intros c' v' E. cbn [bind] in E. injection E as <-.
  cbn [list_at list_of_slice some_ptr]. destruct c' as [| | | |[y|]| |]; reflexivity.
Qed.
Definition grows (A : list val) (i : nat) (cur1 cur2 : list val) : Prop := length cur1 = length cur2 /\ list_at (nth_error cur1 i) = (A ++ list_at (nth_error cur2 i))%list.
Lemma at_grows {Lim : Limit} A fs i f t j sp l a ks d cur1 cur2 c1 c2 : nth_error fs i = Some f -> f_ty f = TPtr (TSlice t) -> grows A i cur1 cur2 ->
  dec_at fs j (dec_elem sp l a ks) d cur1 = Ok c1 -> dec_at fs j (dec_elem sp l a ks) d cur2 = Ok c2 -> grows A i c1 c2.
Proof.
  intros F T (L & G) H1 H2. unfold dec_at in *. destruct (nth_error fs j) as [g|] eqn:J; [|discriminate].
  destruct (nth_error cur1 j) as [x1|] eqn:N1; [|discriminate]. destruct (nth_error cur2 j) as [x2|] eqn:N2; [|discriminate].
  apply bind_ok in H1 as (v1 & D1 & Q). injection Q as <-. apply bind_ok in H2 as (v2 & D2 & Q). injection Q as <-. split; [rewrite !set_nth_length; exact L|].
  destruct (Nat.eq_dec j i) as [->|NE]; [|rewrite !set_nth_other by exact NE; exact G].
  assert (g = f) by congruence. subst g. rewrite T in D1, D2. destruct (elem_grows _ _ _ _ _ _ _ _ D1) as (x & X). apply X in D1. apply X in D2.
  rewrite (set_nth_here i v1 cur1 x1 N1), (set_nth_here i v2 cur2 x2 N2), D1, D2. rewrite N1, N2 in G. rewrite G, app_assoc. reflexivity.
Qed.
Lemma inside_grows {Lim : Limit} A fs i f t p d : nth_error fs i = Some f -> f_ty f = TPtr (TSlice t) -> forall xs cur1 cur2 c1 c2, grows A i cur1 cur2 ->
  dec_inside fs p d (map waiting xs) cur1 = Ok c1 -> dec_inside fs p d (map waiting xs) cur2 = Ok c2 -> grows A i c1 c2.
Proof.
  intros F T. induction xs as [|[s|sp l a kids] xs IH]; intros cur1 cur2 c1 c2 G H1 H2; cbn [map waiting dec_inside] in H1, H2; [injection H1 as <-; injection H2 as <-; exact G|eapply IH; eassumption|].
  apply bind_ok in H1 as (d1 & D1 & H1). apply bind_ok in H2 as (d2 & D2 & H2). eapply IH; [|exact H1|exact H2].
  destruct (find_place (Some p) l 0 fs) as [[j|q]|]; [eapply at_grows; eassumption|injection D1 as <-; injection D2 as <-; exact G|injection D1 as <-; injection D2 as <-; exact G].
Qed.
Lemma kids_grow {Lim : Limit} A fs i f t d : nth_error fs i = Some f -> f_ty f = TPtr (TSlice t) -> forall xs cur1 cur2 c1 c2, grows A i cur1 cur2 ->
  dec_kids fs d (map waiting xs) cur1 = Ok c1 -> dec_kids fs d (map waiting xs) cur2 = Ok c2 -> grows A i c1 c2.
Proof.
  intros F T. induction xs as [|[s|sp l a kids] xs IH]; intros cur1 cur2 c1 c2 G H1 H2; cbn [map waiting dec_kids] in H1, H2; [injection H1 as <-; injection H2 as <-; exact G|eapply IH; eassumption|].
  apply bind_ok in H1 as (d1 & D1 & H1). apply bind_ok in H2 as (d2 & D2 & H2). eapply IH; [|exact H1|exact H2].
  destruct (find_place None l 0 fs) as [[j|q]|]; [eapply at_grows; eassumption|eapply inside_grows; eassumption|injection D1 as <-; injection D2 as <-; exact G].
Qed.

(** A field depends on the document and on its own old value only. *)
Definition own (i : nat) (cur1 cur2 : list val) : Prop := length cur1 = length cur2 /\ nth_error cur1 i = nth_error cur2 i.
Lemma attr_length fs n s : forall cur cur', set_attr fs n s cur = Ok cur' -> length cur' = length cur.
Proof.
  induction fs as [|g fs IH]; intros [|c cur] cur' H; cbn [set_attr] in H; try (injection H as <-; reflexivity).
  apply bind_ok in H as (v & _ & H). apply bind_ok in H as (vs & V & Q). injection Q as <-. cbn [length]. f_equal. apply IH, V.
Qed.
Lemma attr_own fs n s : forall i cur1 cur2 c1 c2, own i cur1 cur2 -> set_attr fs n s cur1 = Ok c1 -> set_attr fs n s cur2 = Ok c2 -> own i c1 c2.
Proof.
  intros i cur1 cur2 c1 c2 (L & E) H1 H2. split; [rewrite (attr_length _ _ _ _ _ H1), (attr_length _ _ _ _ _ H2); exact L|]. revert i cur1 cur2 c1 c2 L E H1 H2.
  induction fs as [|g fs IH]; intros i [|x1 cur1] [|x2 cur2] c1 c2 L E H1 H2; try discriminate L; cbn [set_attr] in H1, H2; try (injection H1 as <-; injection H2 as <-; exact E).
  apply bind_ok in H1 as (v1 & V1 & H1). apply bind_ok in H1 as (w1 & W1 & Q). injection Q as <-. apply bind_ok in H2 as (v2 & V2 & H2). apply bind_ok in H2 as (w2 & W2 & Q). injection Q as <-.
  destruct i as [|i]; cbn [nth_error] in *; [|injection L as L; exact (IH _ _ _ _ _ L E W1 W2)].
  injection E as ->. congruence.
Qed.
Lemma attrs_own fs i : forall attrs cur1 cur2 c1 c2, own i cur1 cur2 -> set_attrs fs attrs cur1 = Ok c1 -> set_attrs fs attrs cur2 = Ok c2 -> own i c1 c2.
Proof.
  induction attrs as [|(n & s) attrs IH]; intros cur1 cur2 c1 c2 O H1 H2; cbn [set_attrs] in *; [injection H1 as <-; injection H2 as <-; exact O|].
  apply bind_ok in H1 as (d1 & D1 & H1). apply bind_ok in H2 as (d2 & D2 & H2). eapply IH; [|exact H1|exact H2]. eapply attr_own; eassumption.
Qed.
Lemma chardata_own fs s : forall i cur1 cur2, own i cur1 cur2 -> own i (set_chardata fs s cur1) (set_chardata fs s cur2).
Proof.
  induction fs as [|g fs IH]; intros i [|x1 cur1] [|x2 cur2] (L & E); try discriminate L; cbn [set_chardata]; try (split; [exact L|exact E]).
  injection L as L. destruct i as [|i].
  - destruct (IH (length cur1) cur1 cur2) as (L' & _); [split; [exact L|]; rewrite (proj2 (nth_error_None cur1 _)) by lia; rewrite (proj2 (nth_error_None cur2 _)) by lia; reflexivity|].
    split; [cbn [length]; f_equal; exact L'|]. cbn [nth_error] in *. injection E as ->. reflexivity.
  - destruct (IH i cur1 cur2 (conj L E)) as (L' & E'). split; [cbn [length]; f_equal; exact L'|exact E'].
Qed.
Lemma at_own fs i j dec d cur1 cur2 c1 c2 : own i cur1 cur2 -> dec_at fs j dec d cur1 = Ok c1 -> dec_at fs j dec d cur2 = Ok c2 -> own i c1 c2.
Proof.
  intros (L & E) H1 H2. unfold dec_at in *. destruct (nth_error fs j) as [g|]; [|discriminate].
  destruct (nth_error cur1 j) as [x1|] eqn:N1; [|discriminate]. destruct (nth_error cur2 j) as [x2|] eqn:N2; [|discriminate].
  apply bind_ok in H1 as (v1 & D1 & Q). injection Q as <-. apply bind_ok in H2 as (v2 & D2 & Q). injection Q as <-. split; [rewrite !set_nth_length; exact L|].
  destruct (Nat.eq_dec j i) as [->|NE]; [|rewrite !set_nth_other by exact NE; exact E]. rewrite (set_nth_here i v1 cur1 x1 N1), (set_nth_here i v2 cur2 x2 N2). congruence.
Qed.
Lemma inside_own fs i p d : forall ks cur1 cur2 c1 c2, own i cur1 cur2 -> dec_inside fs p d ks cur1 = Ok c1 -> dec_inside fs p d ks cur2 = Ok c2 -> own i c1 c2.
Proof.
  induction ks as [|[s|sp l a inner dec] ks IH]; intros cur1 cur2 c1 c2 O H1 H2; cbn [dec_inside] in H1, H2; [injection H1 as <-; injection H2 as <-; exact O|eapply IH; eassumption|].
  apply bind_ok in H1 as (d1 & D1 & H1). apply bind_ok in H2 as (d2 & D2 & H2). eapply IH; [|exact H1|exact H2].
  destruct (find_place (Some p) l 0 fs) as [[j|q]|]; [eapply at_own; eassumption|injection D1 as <-; injection D2 as <-; exact O|injection D1 as <-; injection D2 as <-; exact O].
Qed.
Lemma kids_own fs i d : forall ks cur1 cur2 c1 c2, own i cur1 cur2 -> dec_kids fs d ks cur1 = Ok c1 -> dec_kids fs d ks cur2 = Ok c2 -> own i c1 c2.
Proof.
  induction ks as [|[s|sp l a inner dec] ks IH]; intros cur1 cur2 c1 c2 O H1 H2; cbn [dec_kids] in H1, H2; [injection H1 as <-; injection H2 as <-; exact O|eapply IH; eassumption|].
  apply bind_ok in H1 as (d1 & D1 & H1). apply bind_ok in H2 as (d2 & D2 & H2). eapply IH; [|exact H1|exact H2].
  destruct (find_place None l 0 fs) as [[j|q]|]; [eapply at_own; eassumption|eapply inside_own; eassumption|injection D1 as <-; injection D2 as <-; exact O].
Qed.
Lemma name_own fs sp l : forall i cur1 cur2, own i cur1 cur2 -> own i (set_name fs sp l cur1) (set_name fs sp l cur2).
Proof.
  assert (L : forall fs cur, length (set_name fs sp l cur) = length cur) by (clear; induction fs as [|g fs IH]; intros [|c cur]; cbn; auto).
  intros i cur1 cur2 (E & O). split; [rewrite !L; exact E|]. clear L. revert i cur1 cur2 E O.
  induction fs as [|g fs IH]; intros i [|x1 cur1] [|x2 cur2] L E; try discriminate L; cbn [set_name]; try exact E. injection L as L. destruct i as [|i]; cbn [nth_error] in *; [|exact (IH i cur1 cur2 L E)].
  injection E as ->. reflexivity.
Qed.

(** ** Whole documents *)
Lemma xml_dec {Lim : Limit} entries x b c : bom_within entries x b = Ok c -> exists sp a ks vs, x = XElem sp "bom" a ks /\ length vs = 21%nat /\
  dec_struct fields_BOM sp "bom" a (map waiting ks) 0 (bom_values b) = Ok vs /\
  c = set_BOM_SpecVersion (match_namespace entries (xmlns_of a (BOM_XMLNS b)) (BOM_SpecVersion b)) (reflect_BOM (VStruct vs)).
Proof.
  intros H. unfold bom_within in H. apply bind_ok in H as (v & V & Q). destruct x as [s|sp l a ks]; [discriminate V|].
  rewrite bom_dec_struct in V. change ((limit <=? 0)%N) with false in V. cbv iota in V. apply bind_ok in V as (vs & V & E). injection E as <-.
  pose proof (bom_values_kept _ _ _ _ _ _ V) as (-> & V1 & V4 & V0 & L). destruct (reflect_fields vs _ _ _ _ L V0 V1 V4) as (R0 & R1 & R4). cbv zeta in Q. rewrite R1, R4 in Q. injection Q as <-.
  exists sp, a, ks, vs. auto.
Qed.
Lemma struct_keeps {Lim : Limit} fs sp l a xs d cur vs i f : nth_error fs i = Some f -> is_chardata f = false -> String.eqb (f_name f) "XMLName" = false ->
  (forall n s, In (n, s) a -> is_attr n f = false) -> (forall t, top f = Some t -> ~ exists sp' a' ks', In (XElem sp' t a' ks') xs) ->
  dec_struct fs sp l a (map waiting xs) d cur = Ok vs -> nth_error vs i = nth_error cur i.
Proof.
  intros F C NN A T H. unfold dec_struct in H. destruct (match xml_name fs with Some n => negb (String.eqb n l) | None => false end); [discriminate|].
  apply bind_ok in H as (c1 & C1 & H). apply bind_ok in H as (c2 & C2 & Q). injection Q as <-.
  destruct (chardata_keeps fs i f (chardata (map waiting xs)) F C c2) as (_ & ->).
  assert (K : kept fs i c1 c2).
  { eapply kids_other; [exact F| |exact C2]. intros t Tt (k & I & N). apply (T t Tt). apply in_map_iff in I as ([s|sp' l' a' ks'] & <- & I); [contradiction N|]. cbn [waiting named] in N. subst l'. eauto. }
  destruct K as (_ & ->). destruct (attrs_other fs i f F a _ _ A C1) as (_ & ->). clear -F NN. revert i cur F. induction fs as [|g fs IH]; intros [|i] [|c cur] F; try discriminate; cbn [set_name nth_error] in *; try reflexivity.
  - injection F as ->. rewrite NN. reflexivity.
  - exact (IH i cur F).
Qed.
Lemma struct_own {Lim : Limit} fs sp l a xs d cur1 cur2 c1 c2 i : own i cur1 cur2 -> dec_struct fs sp l a (map waiting xs) d cur1 = Ok c1 -> dec_struct fs sp l a (map waiting xs) d cur2 = Ok c2 -> own i c1 c2.
Proof.
  intros O H1 H2. unfold dec_struct in *. destruct (match xml_name fs with Some n => negb (String.eqb n l) | None => false end); [discriminate|].
  apply bind_ok in H1 as (d1 & D1 & H1). apply bind_ok in H1 as (e1 & E1 & Q). injection Q as <-. apply bind_ok in H2 as (d2 & D2 & H2). apply bind_ok in H2 as (e2 & E2 & Q). injection Q as <-.
  apply chardata_own. eapply kids_own; [|exact E1|exact E2]. eapply attrs_own; [|exact D1|exact D2]. apply name_own, O.
Qed.
Lemma struct_grows {Lim : Limit} fs sp l a xs d cur1 cur2 c1 c2 i f t : nth_error fs i = Some f -> f_ty f = TPtr (TSlice t) -> is_chardata f = false -> String.eqb (f_name f) "XMLName" = false -> (forall n, is_attr n f = false) ->
  length cur1 = length cur2 -> list_at (nth_error cur2 i) = [] ->
  dec_struct fs sp l a (map waiting xs) d cur1 = Ok c1 -> dec_struct fs sp l a (map waiting xs) d cur2 = Ok c2 ->
  list_at (nth_error c1 i) = (list_at (nth_error cur1 i) ++ list_at (nth_error c2 i))%list.
Proof.
  intros F T C NN A L Z H1 H2. unfold dec_struct in *. destruct (match xml_name fs with Some n => negb (String.eqb n l) | None => false end); [discriminate|].
  apply bind_ok in H1 as (d1 & D1 & H1). apply bind_ok in H1 as (e1 & E1 & Q). injection Q as <-. apply bind_ok in H2 as (d2 & D2 & H2). apply bind_ok in H2 as (e2 & E2 & Q). injection Q as <-.
  destruct (chardata_keeps fs i f (chardata (map waiting xs)) F C e1) as (_ & ->). destruct (chardata_keeps fs i f (chardata (map waiting xs)) F C e2) as (_ & ->).
  assert (N : forall cur, nth_error (set_name fs sp l cur) i = nth_error cur i /\ length (set_name fs sp l cur) = length cur).
  { clear -F NN. revert i F. induction fs as [|g fs IH]; intros [|i] F [|c cur]; try discriminate; cbn [set_name nth_error] in *; auto.
    - injection F as ->. rewrite NN. split; [reflexivity|]. cbn [length]. f_equal. clear. revert cur. induction fs as [|g fs IH]; intros [|c cur]; cbn; auto.
    - destruct (IH i F cur) as (P & Q). split; [exact P|cbn [length]; f_equal; exact Q]. }
  destruct (attrs_keep fs i f F A _ _ _ D1) as (L1 & K1). destruct (attrs_keep fs i f F A _ _ _ D2) as (L2 & K2). destruct (N cur1) as (P1 & Q1). destruct (N cur2) as (P2 & Q2).
  eapply (kids_grow (list_at (nth_error cur1 i)) fs i f t d F T xs d1 d2); [|exact E1|exact E2]. split; [congruence|]. rewrite K1, K2, P1, P2, Z, app_nil_r. reflexivity.
Qed.

(** ** The fields of the BOM *)
Lemma agree vs ws : length vs = 21%nat -> length ws = 21%nat -> let c := reflect_BOM (VStruct vs) in let b := reflect_BOM (VStruct ws) in
  (nth_error vs 0 = nth_error ws 0 -> BOM_XMLName c = BOM_XMLName b) /\
  (nth_error vs 1 = nth_error ws 1 -> BOM_XMLNS c = BOM_XMLNS b) /\
  (nth_error vs 2 = nth_error ws 2 -> BOM_JSONSchema c = BOM_JSONSchema b) /\
  (nth_error vs 3 = nth_error ws 3 -> BOM_BOMFormat c = BOM_BOMFormat b) /\
  (nth_error vs 4 = nth_error ws 4 -> BOM_SpecVersion c = BOM_SpecVersion b) /\
  (nth_error vs 5 = nth_error ws 5 -> BOM_SerialNumber c = BOM_SerialNumber b) /\
  (nth_error vs 6 = nth_error ws 6 -> BOM_Version c = BOM_Version b) /\
  (nth_error vs 7 = nth_error ws 7 -> BOM_Metadata c = BOM_Metadata b) /\
  (nth_error vs 8 = nth_error ws 8 -> BOM_Components c = BOM_Components b) /\
  (nth_error vs 9 = nth_error ws 9 -> BOM_Services c = BOM_Services b) /\
  (nth_error vs 10 = nth_error ws 10 -> BOM_ExternalReferences c = BOM_ExternalReferences b) /\
  (nth_error vs 11 = nth_error ws 11 -> BOM_Dependencies c = BOM_Dependencies b) /\
  (nth_error vs 12 = nth_error ws 12 -> BOM_Compositions c = BOM_Compositions b) /\
  (nth_error vs 13 = nth_error ws 13 -> BOM_Properties c = BOM_Properties b) /\
  (nth_error vs 14 = nth_error ws 14 -> BOM_Vulnerabilities c = BOM_Vulnerabilities b) /\
  (nth_error vs 15 = nth_error ws 15 -> BOM_Annotations c = BOM_Annotations b) /\
  (nth_error vs 16 = nth_error ws 16 -> BOM_Formulation c = BOM_Formulation b) /\
  (nth_error vs 17 = nth_error ws 17 -> BOM_Declarations c = BOM_Declarations b) /\
  (nth_error vs 18 = nth_error ws 18 -> BOM_Definitions c = BOM_Definitions b) /\
  (nth_error vs 19 = nth_error ws 19 -> BOM_Citations c = BOM_Citations b) /\
  (nth_error vs 20 = nth_error ws 20 -> BOM_Signature c = BOM_Signature b).
Proof.
  intros L1 L2. listing vs L1. listing ws L2. cbn [nth_error reflect_BOM]. repeat split; intros H; injection H as ->; reflexivity.
Qed.
Lemma members_at {A} (r : val -> A) v : ConvertSpec.members (ptr_of (slice_of r) v) = map r (list_at (Some v)).
Proof. destruct v as [| | | |[[| | | | |[l|]|]|]| |]; reflexivity. Qed.
Lemma lists_agree A vs ws us : length vs = 21%nat -> length ws = 21%nat -> length us = 21%nat -> let c := reflect_BOM (VStruct vs) in let b := reflect_BOM (VStruct ws) in let c0 := reflect_BOM (VStruct us) in
  (forall i, A i -> list_at (nth_error vs i) = (list_at (nth_error ws i) ++ list_at (nth_error us i))%list) ->
  (A 8%nat -> ConvertSpec.members (BOM_Components c) = (ConvertSpec.members (BOM_Components b) ++ ConvertSpec.members (BOM_Components c0))%list) /\
  (A 9%nat -> ConvertSpec.members (BOM_Services c) = (ConvertSpec.members (BOM_Services b) ++ ConvertSpec.members (BOM_Services c0))%list) /\
  (A 10%nat -> ConvertSpec.members (BOM_ExternalReferences c) = (ConvertSpec.members (BOM_ExternalReferences b) ++ ConvertSpec.members (BOM_ExternalReferences c0))%list) /\
  (A 11%nat -> ConvertSpec.members (BOM_Dependencies c) = (ConvertSpec.members (BOM_Dependencies b) ++ ConvertSpec.members (BOM_Dependencies c0))%list) /\
  (A 12%nat -> ConvertSpec.members (BOM_Compositions c) = (ConvertSpec.members (BOM_Compositions b) ++ ConvertSpec.members (BOM_Compositions c0))%list) /\
  (A 13%nat -> ConvertSpec.members (BOM_Properties c) = (ConvertSpec.members (BOM_Properties b) ++ ConvertSpec.members (BOM_Properties c0))%list) /\
  (A 14%nat -> ConvertSpec.members (BOM_Vulnerabilities c) = (ConvertSpec.members (BOM_Vulnerabilities b) ++ ConvertSpec.members (BOM_Vulnerabilities c0))%list) /\
  (A 15%nat -> ConvertSpec.members (BOM_Annotations c) = (ConvertSpec.members (BOM_Annotations b) ++ ConvertSpec.members (BOM_Annotations c0))%list) /\
  (A 16%nat -> ConvertSpec.members (BOM_Formulation c) = (ConvertSpec.members (BOM_Formulation b) ++ ConvertSpec.members (BOM_Formulation c0))%list) /\
  (A 19%nat -> ConvertSpec.members (BOM_Citations c) = (ConvertSpec.members (BOM_Citations b) ++ ConvertSpec.members (BOM_Citations c0))%list).
Proof.
  intros L1 L2 L3 c b c0 H. subst c b c0. listing vs L1. listing ws L2. listing us L3.
  assert (G : forall T (r : val -> T) x y z, list_at (Some x) = (list_at (Some y) ++ list_at (Some z))%list ->
    ConvertSpec.members (ptr_of (slice_of r) x) = (ConvertSpec.members (ptr_of (slice_of r) y) ++ ConvertSpec.members (ptr_of (slice_of r) z))%list).
  { intros T r x y z E. rewrite !members_at, E, map_app. reflexivity. }
  cbn [reflect_BOM]. repeat split; intros a; apply H in a; apply G; exact a.
Qed.
Lemma lengths_agree vs : length vs = 21%nat -> let c := reflect_BOM (VStruct vs) in
  length (ConvertSpec.members (BOM_Components c)) = length (list_at (nth_error vs 8)) /\
  length (ConvertSpec.members (BOM_Services c)) = length (list_at (nth_error vs 9)) /\
  length (ConvertSpec.members (BOM_ExternalReferences c)) = length (list_at (nth_error vs 10)) /\
  length (ConvertSpec.members (BOM_Dependencies c)) = length (list_at (nth_error vs 11)) /\
  length (ConvertSpec.members (BOM_Compositions c)) = length (list_at (nth_error vs 12)) /\
  length (ConvertSpec.members (BOM_Properties c)) = length (list_at (nth_error vs 13)) /\
  length (ConvertSpec.members (BOM_Vulnerabilities c)) = length (list_at (nth_error vs 14)) /\
  length (ConvertSpec.members (BOM_Annotations c)) = length (list_at (nth_error vs 15)) /\
  length (ConvertSpec.members (BOM_Formulation c)) = length (list_at (nth_error vs 16)) /\
  length (ConvertSpec.members (BOM_Citations c)) = length (list_at (nth_error vs 19)).
Proof. intros L. listing vs L. cbn [reflect_BOM nth_error]. cbn. repeat match goal with |- _ /\ _ => split end; rewrite members_at; apply map_length. Qed.
Lemma nil_agree vs : length vs = 21%nat -> let c := reflect_BOM (VStruct vs) in
  (nth_error vs 8 = Some (VPtr None) -> BOM_Components c = None) /\
  (nth_error vs 9 = Some (VPtr None) -> BOM_Services c = None) /\
  (nth_error vs 10 = Some (VPtr None) -> BOM_ExternalReferences c = None) /\
  (nth_error vs 11 = Some (VPtr None) -> BOM_Dependencies c = None) /\
  (nth_error vs 12 = Some (VPtr None) -> BOM_Compositions c = None) /\
  (nth_error vs 13 = Some (VPtr None) -> BOM_Properties c = None) /\
  (nth_error vs 14 = Some (VPtr None) -> BOM_Vulnerabilities c = None) /\
  (nth_error vs 15 = Some (VPtr None) -> BOM_Annotations c = None) /\
  (nth_error vs 16 = Some (VPtr None) -> BOM_Formulation c = None) /\
  (nth_error vs 19 = Some (VPtr None) -> BOM_Citations c = None) /\
  (nth_error vs 7 = Some (VPtr None) -> BOM_Metadata c = None) /\
  (nth_error vs 17 = Some (VPtr None) -> BOM_Declarations c = None) /\
  (nth_error vs 18 = Some (VPtr None) -> BOM_Definitions c = None) /\
  (nth_error vs 20 = Some (VPtr None) -> BOM_Signature c = None).
Proof. intros L. listing vs L. cbn [reflect_BOM nth_error]. repeat match goal with |- _ /\ _ => split end; intros H; injection H as ->; reflexivity. Qed.
