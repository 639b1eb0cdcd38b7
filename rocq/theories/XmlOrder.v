(** Comparing the order and number of the elements that the package writes with a schema: for
    C47 and C48. *)
From Verif Require Import Base Types Univ TypeTable Wt ReifyBase Reify XmlModel XmlSpec XmlProofs XmlNeat XsdSpec OrderSpec XmlShape.
Local Open Scope string_scope.

(** ** Comparing, for a relation between the names of elements of a type *)
Definition relation := string -> option (string -> string -> bool).
Fixpoint rising (p : string -> string -> bool) (l : list (string * bool)) : bool :=
  match l with [] => true | (k, b) :: l' => ((negb b || p k k) && forallb (fun m => p k (fst m)) l' && rising p l')%bool end.
Definition turns_fit (p : string -> string -> bool) (g : gtype) : bool :=
  match g_turns g with
  | [] => forallb (fun k => forallb (p (fst k)) (map fst (g_kids g))) (g_kids g)
  | ts => forallb (rising p) ts
  end.
Section Compare.
  Variable d : xsd.
  Variable rel : relation.
  Variable R : list (string * string).
  Definition lines_up (sub : place -> string -> bool) (g : gtype) (s : string) : bool :=
    match assoc s d, rel s with
    | Some T, Some p => (turns_fit p g && forallb (fun k => match assoc (fst k) (t_kids T) with Some s' => sub (snd k) s' | None => true end) (g_kids g))%bool
    | _, _ => false
    end.
  Fixpoint in_line (fuel : nat) (p : place) (s : string) : bool :=
    match fuel with
    | O => false
    | S fuel' => match p with Of n => listed R n s | _ => lines_up (in_line fuel') (look p) s end
    end.
  Definition all_in_line : bool := forallb (fun p => lines_up (in_line deep) (look (Of (fst p))) (snd p)) R.
End Compare.
Definition related (d : xsd) (rel : relation) : bool := let R := met d in (listed R "BOM" "bom" && all_in_line d rel R)%bool.

(** ** Comparing is sound *)
Fixpoint pairwise (p : string -> string -> bool) (l : list string) : bool := match l with [] => true | k :: l' => (forallb (p k) l' && pairwise p l')%bool end.
Inductive paired (d : xsd) (rel : relation) : string -> list xml -> Prop :=
| paired_element n T p kids :
    assoc n d = Some T -> rel n = Some p -> pairwise p (names kids) = true ->
    (forall sp l a ks n', In (XElem sp l a ks) kids -> assoc l (t_kids T) = Some n' -> paired d rel n' ks) ->
    paired d rel n kids.
Lemma ordered_in l ns : ordered l ns -> forall n, In n ns -> In n (map fst l).
Proof.
  induction 1 as [l|k l ns O IH|k b l ns O IH|k l ns O IH]; intros n H; [destruct H|destruct H as [<-|H]; [left; reflexivity|exact (IH n H)]|destruct H as [<-|H]; [left; reflexivity|right; exact (IH n H)]|right; exact (IH n H)].
Qed.
Lemma ordered_pairwise p l ns : ordered l ns -> rising p l = true -> pairwise p ns = true.
Proof.
  induction 1 as [l|k l ns O IH|k b l ns O IH|[k b] l ns O IH]; intros Q; [reflexivity|..].
  - cbn [pairwise]. rewrite (IH Q), Bool.andb_true_r. apply forallb_forall. intros n H. cbn [rising] in Q. apply andb_prop in Q as (Q & _). apply andb_prop in Q as (Qk & Q). rewrite forallb_forall in Q.
    destruct (ordered_in _ _ O n H) as [<-|Hn]; [exact Qk|]. apply in_map_iff in Hn as (m & <- & Hm). exact (Q m Hm).
  - cbn [rising] in Q. apply andb_prop in Q as (Q & Ql). apply andb_prop in Q as (_ & Q). cbn [pairwise]. rewrite (IH Ql), Bool.andb_true_r. apply forallb_forall. intros n H. rewrite forallb_forall in Q.
    pose proof (ordered_in _ _ O n H) as Hn. apply in_map_iff in Hn as (m & <- & Hm). exact (Q m Hm).
  - apply IH. cbn [rising] in Q. apply andb_prop in Q as (_ & Q). exact Q.
Qed.
Lemma any_pairwise p : forall ns, (forall k l, In k ns -> In l ns -> p k l = true) -> pairwise p ns = true.
Proof.
  induction ns as [|k ns IH]; intros Q; [reflexivity|]. cbn [pairwise]. apply andb_true_intro. split.
  - apply forallb_forall. intros l Hl. apply Q; [left; reflexivity|right; exact Hl].
  - apply IH. intros m l Hm Hl. apply Q; right; assumption.
Qed.
Lemma turns_pairwise p g a ks : turns_fit p g = true -> inside g a ks -> turn g ks -> pairwise p (names ks) = true.
Proof.
  intros Q (_ & K) T. unfold turns_fit in Q. destruct (g_turns g) as [|t ts] eqn:E.
  - apply any_pairwise. rewrite Forall_forall in K. rewrite forallb_forall in Q.
    assert (N : forall k, In k (names ks) -> exists q, In (k, q) (g_kids g)). { intros k Hk. apply in_flat_map in Hk as ([s|sp l a' ks'] & H & Hl); [destruct Hl|]. destruct Hl as [<-|[]]. destruct (K _ H) as (q & Hq & _). exists q. exact Hq. }
    intros k l Hk Hl. destruct (N k Hk) as (q & Hq), (N l Hl) as (q' & Hq'). specialize (Q _ Hq). rewrite forallb_forall in Q. apply Q. exact (in_map fst _ _ Hq').
  - destruct T as [T|(l & H & O)]; [congruence|]. rewrite E in H. rewrite forallb_forall in Q. exact (ordered_pairwise p l _ O (Q l H)).
Qed.
Section Sound.
  Variable d : xsd.
  Variable rel : relation.
  Variable R : list (string * string).
  Hypothesis C : all_in_line d rel R = true.
  Definition borne (x : xml) : Prop := match x with XElem _ _ a ks => forall p s, writes p a ks -> in_line d rel R deep p s = true -> paired d rel s ks | XText _ => True end.
  Lemma in_line_more : forall fuel p s, in_line d rel R fuel p s = true -> forall fuel', fuel <= fuel' -> in_line d rel R fuel' p s = true.
  Proof.
    induction fuel as [|fuel IH]; intros p s F fuel' L; [discriminate F|]. destruct fuel' as [|fuel']; [inversion L|]. apply le_S_n in L. cbn [in_line] in F |- *. destruct p as [|n|ps name t|n]; try exact F.
    all: unfold lines_up in F |- *; destruct (assoc s d) as [T|]; [|discriminate F]; destruct (rel s) as [r|]; [|discriminate F]; apply andb_prop in F as (F & K); rewrite F; cbn [andb]; rewrite forallb_forall in K |- *; intros k Hk; specialize (K k Hk);
      destruct (assoc (fst k) (t_kids T)) as [s'|]; [exact (IH _ _ K fuel' L)|reflexivity].
  Qed.
  Lemma lined_up fuel p s a ks : fuel <= deep -> lines_up d rel (in_line d rel R fuel) (look p) s = true -> Forall borne ks -> writes p a ks -> paired d rel s ks.
  Proof.
    intros L M F W. unfold lines_up in M. destruct (assoc s d) as [T|] eqn:As; [|discriminate M]. destruct (rel s) as [r|] eqn:Ao; [|discriminate M]. apply andb_prop in M as (MT & MK). rewrite forallb_forall in MK. rewrite Forall_forall in F.
    pose proof (writes_inside p a ks W) as I. inversion W as [p' a' ks' A Tx K Tn]; subst.
    apply (paired_element d rel s T r); [exact As|exact Ao|exact (turns_pairwise r _ a ks MT I Tn)|]. intros sp l a' ks' n' H An. destruct (K _ _ _ _ H) as (q & Hq & Wq). specialize (MK _ Hq). cbn [fst snd] in MK. rewrite An in MK.
    exact (F _ H q n' Wq (in_line_more fuel q n' MK deep L)).
  Qed.
  Lemma all_borne x : borne x.
  Proof.
    induction x as [s|sp l a ks IH] using xml_induction; [exact I|]. intros p s W F. destruct p as [|n|ps name t|n]; try exact (lined_up 4 _ s a ks (le_S _ _ (le_n _)) F IH W).
    cbn [in_line deep] in F. unfold listed in F. apply existsb_exists in F as ((n', s') & Hi & Q). apply andb_prop in Q as (Q1 & Q2). cbn [fst snd] in Q1, Q2. apply String.eqb_eq in Q1 as ->, Q2 as ->.
    unfold all_in_line in C. rewrite forallb_forall in C. exact (lined_up deep (Of n) s a ks (le_n _) (C _ Hi) IH W).
  Qed.
End Sound.
Lemma related_paired d rel b xs : related d rel = true -> bom_to_xml b = Ok xs -> exists attrs kids, xs = [XElem "" "bom" attrs kids] /\ paired d rel "bom" kids.
Proof.
  unfold related. cbv zeta. generalize (met d). intros R C E. apply andb_prop in C as (L & C). apply bom_written in E as (a & ks & -> & W). exists a, ks. split; [reflexivity|].
  exact (all_borne d rel R C (XElem "" "bom" a ks) (Of "BOM") "bom" W L).
Qed.
(** A document for which it does not hold *)
Fixpoint may_be_paired (d : xsd) (rel : relation) (fuel : nat) (n : string) (ks : list xml) : bool :=
  match fuel with
  | O => true
  | S fuel' =>
      match assoc n d, rel n with
      | Some T, Some p => (pairwise p (names ks) && forallb (fun x => match x with XElem _ l _ ks' => match assoc l (t_kids T) with Some n' => may_be_paired d rel fuel' n' ks' | None => true end | XText _ => true end) ks)%bool
      | _, _ => false
      end
  end.
Lemma paired_may_be d rel : forall fuel n ks, paired d rel n ks -> may_be_paired d rel fuel n ks = true.
Proof.
  induction fuel as [|fuel IH]; intros n ks K; [reflexivity|]. cbn [may_be_paired]. inversion K as [n' T r ks' As Ao P Ke]; subst. rewrite As, Ao. apply andb_true_intro. split; [exact P|]. apply forallb_forall.
  intros [s|sp l a' ks'] H; [reflexivity|]. destruct (assoc l (t_kids T)) as [n'|] eqn:An; [|reflexivity]. exact (IH _ _ (Ke _ _ _ _ _ H An)).
Qed.
Section Paired.
  (* Facts about all that is within a document *)
  Variable d : xsd.
  Variable rel : relation.
  Variable P : string -> list xml -> Prop.
  Hypothesis H : forall n T p kids, assoc n d = Some T -> rel n = Some p -> pairwise p (names kids) = true -> (forall sp l a ks n', In (XElem sp l a ks) kids -> assoc l (t_kids T) = Some n' -> P n' ks) -> P n kids.
  Definition paired_all (x : xml) : Prop := match x with XElem _ _ _ ks => forall n, paired d rel n ks -> P n ks | XText _ => True end.
  Lemma paired_P n ks : paired d rel n ks -> P n ks.
  Proof.
    assert (A : forall x, paired_all x).
    { induction x as [s|sp l a kids IH] using xml_induction; [exact I|]. intros m K. inversion K as [n' T r ks' As Ao Q Ke]; subst. apply (H m T r kids As Ao Q). intros sp' l' a' ks' n' Hi An. rewrite Forall_forall in IH. exact (IH _ Hi n' (Ke _ _ _ _ _ Hi An)). }
    exact (A (XElem "" "" [] ks) n).
  Qed.
End Paired.

(** ** Order *)
Definition may_precede (ranks : list (string * nat)) (k l : string) : bool := match assoc k ranks, assoc l ranks with Some i, Some j => Nat.leb i j | _, _ => true end.
Definition in_order (o : orders) : relation := fun n => option_map may_precede (assoc n o).
Lemma pairwise_before ranks : forall xs, pairwise (may_precede ranks) (names xs) = true <-> ForallOrdPairs (before ranks) xs.
Proof.
  assert (B : forall k sp l a ks sp' a' ks', may_precede ranks k l = true <-> before ranks (XElem sp' k a' ks') (XElem sp l a ks)).
  { intros. unfold may_precede, before. destruct (assoc k ranks) as [i|], (assoc l ranks) as [j|]; try (split; [intros _; exact I|reflexivity]). apply Nat.leb_le. }
  induction xs as [|x xs IH]; [split; [constructor|reflexivity]|]. destruct x as [s|sp k a ks].
  - cbn [names flat_map app]. fold (names xs). split.
    + intros Q. constructor; [apply Forall_forall; intros y _; exact I|apply IH, Q].
    + intros Q. inversion Q; subst. apply IH. assumption.
  - cbn [names flat_map app pairwise]. fold (names xs). split.
    + intros Q. apply andb_prop in Q as (Q & Qs). constructor; [|apply IH, Qs]. rewrite forallb_forall in Q. apply Forall_forall. intros [s|sp' l a' ks'] Hy; [exact I|]. apply B, Q. apply in_flat_map. exists (XElem sp' l a' ks'). split; [exact Hy|left; reflexivity].
    + intros Q. inversion Q as [|x xs' F O]; subst. apply andb_true_intro. split; [|apply IH, O]. apply forallb_forall. intros l Hl. apply in_flat_map in Hl as ([s|sp' l' a' ks'] & Hy & Hl); [destruct Hl|]. destruct Hl as [<-|[]]. rewrite Forall_forall in F. exact (proj2 (B _ _ _ _ _ _ _ _) (F _ Hy)).
Qed.
Theorem orderly_arranged d o b xs : related d (in_order o) = true -> bom_to_xml b = Ok xs -> exists attrs kids, xs = [XElem "" "bom" attrs kids] /\ arranged d o "bom" kids.
Proof.
  intros C E. destruct (related_paired _ _ b xs C E) as (a & ks & -> & K). exists a, ks. split; [reflexivity|]. revert K. apply paired_P. clear. intros n T p kids As Ao Q H. unfold in_order in Ao. destruct (assoc n o) as [r|] eqn:R; [|discriminate Ao]. injection Ao as <-.
  exact (arranged_element d o n T r kids As R (proj1 (pairwise_before r kids) Q) H).
Qed.
Lemma not_arranged d o fuel n ks : may_be_paired d (in_order o) fuel n ks = false -> ~ arranged d o n ks.
Proof.
  intros M K. enough (paired d (in_order o) n ks) as Pk by (rewrite (paired_may_be _ _ fuel n ks Pk) in M; discriminate). clear M.
  assert (A : forall x, match x with XElem _ _ _ ks => forall n, arranged d o n ks -> paired d (in_order o) n ks | XText _ => True end).
  { induction x as [s|sp l a kids IH] using xml_induction; [exact I|]. intros m Km. inversion Km as [n' T r ks' As Ao Q Ke]; subst. apply (paired_element d _ m T (may_precede r)); [exact As|unfold in_order; rewrite Ao; reflexivity|apply pairwise_before, Q|].
    intros sp' l' a' ks' n' Hi An. rewrite Forall_forall in IH. exact (IH _ Hi n' (Ke _ _ _ _ _ Hi An)). }
  exact (A (XElem "" "" [] ks) n K).
Qed.

(** ** Number *)
Definition apart (once : list string) (k l : string) : bool := negb (String.eqb k l && existsb (String.eqb k) once).
Definition by_limits (o : limits) : relation := fun n => option_map apart (assoc n o).
Lemma named_names k : forall xs, length (filter (named k) xs) = length (filter (String.eqb k) (names xs)).
Proof.
  induction xs as [|[s|sp l a ks] xs IH]; [reflexivity|exact IH|]. cbn [filter named names flat_map app]. fold (names xs). rewrite (String.eqb_sym l k). destruct (String.eqb k l); cbn [length]; [f_equal|]; exact IH.
Qed.
Lemma pairwise_apart once : forall ns, pairwise (apart once) ns = true <-> forall k, In k once -> length (filter (String.eqb k) ns) <= 1.
Proof.
  induction ns as [|n ns IH]; [split; [intros _ k _; apply le_S, le_n|reflexivity]|]. cbn [pairwise filter]. split.
  - intros Q k Hk. apply andb_prop in Q as (Q & Qs). destruct (String.eqb_spec k n) as [->|N]; [|exact (proj1 IH Qs k Hk)]. cbn [length]. apply le_n_S. rewrite forallb_forall in Q.
    replace (filter (String.eqb n) ns) with (@nil string); [apply le_n|]. symmetry. destruct (filter (String.eqb n) ns) as [|m l] eqn:F; [reflexivity|exfalso]. assert (In m (filter (String.eqb n) ns)) as Hm by (rewrite F; left; reflexivity). apply filter_In in Hm as (Hm & E). specialize (Q m Hm). unfold apart in Q. rewrite E in Q.
    assert (X : existsb (String.eqb n) once = true) by (apply existsb_exists; exists n; split; [exact Hk|apply String.eqb_refl]). rewrite X in Q. discriminate Q.
  - intros Q. apply andb_true_intro. split.
    + apply forallb_forall. intros m Hm. unfold apart. destruct (String.eqb_spec n m) as [<-|]; [|reflexivity]. destruct (existsb (String.eqb n) once) eqn:X; [exfalso|reflexivity]. apply existsb_exists in X as (k & Hk & E). apply String.eqb_eq in E as <-.
      specialize (Q n Hk). rewrite String.eqb_refl in Q. cbn [length] in Q. apply le_S_n in Q. destruct (filter (String.eqb n) ns) as [|x l] eqn:F; [|inversion Q]. assert (In n (filter (String.eqb n) ns)) as H by (apply filter_In; split; [exact Hm|apply String.eqb_refl]). rewrite F in H. destruct H.
    + apply IH. intros k Hk. specialize (Q k Hk). destruct (String.eqb k n); [|exact Q]. cbn [length] in Q. apply le_S_n in Q. apply le_S. exact Q.
Qed.
Theorem limited_sparing d o b xs : related d (by_limits o) = true -> bom_to_xml b = Ok xs -> exists attrs kids, xs = [XElem "" "bom" attrs kids] /\ sparing d o "bom" kids.
Proof.
  intros C E. destruct (related_paired _ _ b xs C E) as (a & ks & -> & K). exists a, ks. split; [reflexivity|]. revert K. apply paired_P. clear. intros n T p kids As Ao Q H. unfold by_limits in Ao. destruct (assoc n o) as [r|] eqn:R; [|discriminate Ao]. injection Ao as <-.
  apply (sparing_element d o n T r kids As R); [|exact H]. intros k Hk. rewrite named_names. exact (proj1 (pairwise_apart r (names kids)) Q k Hk).
Qed.
Lemma not_sparing d o fuel n ks : may_be_paired d (by_limits o) fuel n ks = false -> ~ sparing d o n ks.
Proof.
  intros M K. enough (paired d (by_limits o) n ks) as Pk by (rewrite (paired_may_be _ _ fuel n ks Pk) in M; discriminate). clear M.
  assert (A : forall x, match x with XElem _ _ _ ks => forall n, sparing d o n ks -> paired d (by_limits o) n ks | XText _ => True end).
  { induction x as [s|sp l a kids IH] using xml_induction; [exact I|]. intros m Km. inversion Km as [n' T r ks' As Ao Q Ke]; subst. apply (paired_element d _ m T (apart r)); [exact As|unfold by_limits; rewrite Ao; reflexivity|apply pairwise_apart; intros k Hk; rewrite <- named_names; exact (Q k Hk)|].
    intros sp' l' a' ks' n' Hi An. rewrite Forall_forall in IH. exact (IH _ Hi n' (Ke _ _ _ _ _ Hi An)). }
  exact (A (XElem "" "" [] ks) n K).
Qed.
