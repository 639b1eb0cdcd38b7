(** Trees that say the same are decoded alike. *)
From Verif Require Import Base Types Univ TypeTable Wt ReifyBase Reify Consts LinkModel Version GobProofs JsonModel JsonProofs XmlModel XmlTable XmlProofs XmlChoices XmlNeat XmlGrammar.
From Coq Require Import Permutation.
Local Open Scope string_scope.

(** ** What the types have to satisfy *)

Fixpoint plain (t : ty) : bool := match t with TPtr t' | TSlice t' => plain t' | TRef n => negb (String.eqb n "BOM") | _ => true end.
Definition basic (t : ty) : bool := match kind_of t with KStr | KInt | KBool | KFlt => true | _ => false end.
Definition attr_type (t : ty) : bool := match kind_of t with KPtr t' => basic t' | _ => basic t end.
Definition attr_good (f : field) : bool := match xml_info f with Some (mkX XAttribute _ _ _) => attr_type (f_ty f) | _ => true end.
Definition unnamed (fs : list field) : bool := forallb (fun f => negb (String.eqb (f_name f) "XMLName")) fs.
(** Which types take the text of an element: Decoder.unmarshal and the UnmarshalXML methods. *)
Definition chars (fs : list field) : bool := existsb (fun f => match xml_info f with Some (mkX XCharData _ _ _) => true | _ => false end) fs.
Definition reads_value (t : ty) : bool :=
  match unmarshaler t with MNone => match kind_of t with KStruct fs => chars fs | _ => true end | MCopyright | MSpecVersion | MIKEv2 => true | _ => false end.
Definition reads_slice (t : ty) : bool := match unmarshaler t, kind_of t with MNone, KSlice t' => reads_value t' | _, _ => reads_value t end.
Definition reads (t : ty) : bool := match kind_of t with KPtr t' => reads_slice t' | _ => reads_slice t end.
Definition has_text (l : string) : bool := existsb (String.eqb l) text_elements.
Definition text_good (f : field) : bool := match xml_info f with Some (mkX XElement _ n _) => negb (reads (f_ty f)) || has_text n | _ => true end.
Definition good (fs : list field) : bool := forallb (fun f => plain (f_ty f) && attr_good f && text_good f) fs.
Lemma defs_good : forallb (fun d => match snd d with DStruct fs => good fs && (String.eqb (fst d) "BOM" || unnamed fs) | DAlias t => plain t end) defs = true.
Proof. vm_compute. reflexivity. Qed.
Lemma kind_plain t : match kind_of t with KStruct fs => good fs = true /\ (plain t = true -> unnamed fs = true) | KPtr t' | KSlice t' => plain t = true -> plain t' = true | _ => True end.
Proof.
  destruct t as [| | | | |t|t|n]; try exact I; [intros H; exact H|intros H; exact H|]. cbn [kind_of]. destruct (assoc n defs) as [d|] eqn:A; [|exact I].
  apply (assoc_in n defs) in A. pose proof defs_good as D. rewrite forallb_forall in D. specialize (D _ A). cbn [fst snd] in D. destruct d as [fs|t].
  - apply andb_prop in D as (D1 & D2). split; [exact D1|]. cbn [plain]. intros P. destruct (String.eqb n "BOM"); [discriminate|]. exact D2.
  - destruct t; cbn [kind_base]; try exact I; intros _; exact D.
Qed.

(** ** Attributes *)
Lemma copy_err t s e : basic t = true -> copy_value t s = Err e -> e = XValue.
Proof.
  unfold basic, copy_value. destruct (kind_of t); intros B E; try discriminate B; try discriminate E; destruct (String.eqb s ""); try discriminate E.
  - destruct (atoi (trim_space s)); [discriminate|congruence].
  - destruct (parse_bool (trim_space s)); [discriminate|congruence].
  - destruct (read_xml_float _ (trim_space s)); [discriminate|congruence].
Qed.
Lemma attr_err t s e : attr_type t = true -> dec_attr t s = Err e -> e = XValue.
Proof.
  unfold attr_type, dec_attr. destruct (kind_of t) as [| | | |t'| | |]; try apply copy_err. intros B. destruct (copy_value t' s) as [v|x] eqn:C; [discriminate|]. intros [= <-]. eapply copy_err; eassumption.
Qed.
Lemma set_attr_err fs n s : good fs = true -> forall cur e, set_attr fs n s cur = Err e -> e = XValue.
Proof.
  induction fs as [|f fs IH]; intros G [|c cur] e; try discriminate. cbn [good forallb] in G. apply andb_prop in G as (F & G). apply andb_prop in F as (F & _). apply andb_prop in F as (_ & F).
  cbn [set_attr]. unfold attr_good in F. intros E.
  assert (H : forall r : result xerr val, (forall x, r = Err x -> x = XValue) -> bind r (fun v => bind (set_attr fs n s cur) (fun vs => Ok (v :: vs))) = Err e -> e = XValue).
  { intros [v|x] H Q; cbn [bind] in Q; [|injection Q as <-; apply H; reflexivity]. destruct (set_attr fs n s cur) as [vs|y] eqn:S; [discriminate|]. injection Q as <-. eapply IH; eassumption. }
  eapply H; [|exact E]. destruct (xml_info f) as [[[] ps q o]|]; try discriminate. destruct (String.eqb q n); [|discriminate]. intros x X. eapply attr_err; eassumption.
Qed.
Lemma set_attr_swap fs n s n' s' : good fs = true -> n <> n' -> forall cur,
  bind (set_attr fs n s cur) (set_attr fs n' s') = bind (set_attr fs n' s' cur) (set_attr fs n s).
Proof.
  intros G N. induction fs as [|f fs IH]; intros cur; [reflexivity|]. pose proof G as G0. cbn [good forallb] in G. apply andb_prop in G as (F & G). apply andb_prop in F as (F & _). apply andb_prop in F as (_ & F).
  destruct cur as [|c cur]; [reflexivity|]. cbn [set_attr]. specialize (IH G cur). pose proof (set_attr_err fs n s G cur) as E1. pose proof (set_attr_err fs n' s' G cur) as E2.
  assert (A : forall x e, match xml_info f with Some (mkX XAttribute _ q _) => attr_type (f_ty f) | _ => false end = true -> dec_attr (f_ty f) x = Err e -> e = XValue).
  { intros x e K. eapply attr_err. destruct (xml_info f) as [[[] ps q o]|]; try discriminate K. exact K. }
  unfold attr_good in F. destruct (xml_info f) as [[m ps q o]|] eqn:X.
  2:{ cbn [bind]. destruct (set_attr fs n s cur) as [v1|e1], (set_attr fs n' s' cur) as [v2|e2]; cbn [bind set_attr] in *; rewrite ?X; cbn [bind]; first [rewrite IH; reflexivity|rewrite <- IH; reflexivity|congruence]. }
  destruct m; try (cbn [bind]; destruct (set_attr fs n s cur) as [v1|e1], (set_attr fs n' s' cur) as [v2|e2]; cbn [bind set_attr] in *; rewrite ?X; cbn [bind]; first [rewrite IH; reflexivity|rewrite <- IH; reflexivity|congruence]).
  destruct (String.eqb_spec q n) as [->|N1].
  - destruct (String.eqb_spec n n') as [->|_]; [congruence|]. cbn [bind].
    destruct (dec_attr (f_ty f) s) as [d|ed] eqn:D; cbn [bind].
    + destruct (set_attr fs n s cur) as [v1|e1], (set_attr fs n' s' cur) as [v2|e2]; cbn [bind set_attr] in *; rewrite ?X, ?String.eqb_refl, ?D; cbn [bind];
        rewrite ?(proj2 (String.eqb_neq n n') N); cbn [bind]; first [rewrite IH; reflexivity|rewrite <- IH; reflexivity|congruence].
    + pose proof (A s ed F D) as ->. destruct (set_attr fs n' s' cur) as [v2|e2]; cbn [bind set_attr]; rewrite ?X, ?String.eqb_refl, ?D; cbn [bind]; [reflexivity|]. f_equal. symmetry. apply E2. reflexivity.
  - cbn [bind]. destruct (String.eqb_spec q n') as [->|N2].
    + destruct (dec_attr (f_ty f) s') as [d|ed] eqn:D; cbn [bind].
      * destruct (set_attr fs n s cur) as [v1|e1], (set_attr fs n' s' cur) as [v2|e2]; cbn [bind set_attr] in *; rewrite ?X, ?String.eqb_refl, ?D; cbn [bind];
          rewrite ?(proj2 (String.eqb_neq n' n) (not_eq_sym N)); cbn [bind]; first [rewrite IH; reflexivity|rewrite <- IH; reflexivity|congruence].
      * pose proof (A s' ed F D) as ->. destruct (set_attr fs n s cur) as [v2|e2]; cbn [bind set_attr]; rewrite ?X, ?String.eqb_refl, ?D; cbn [bind]; [reflexivity|]. f_equal. apply E1. reflexivity.
    + cbn [bind]. destruct (set_attr fs n s cur) as [v1|e1], (set_attr fs n' s' cur) as [v2|e2]; cbn [bind set_attr] in *; rewrite ?X;
        rewrite ?(proj2 (String.eqb_neq q n) N1), ?(proj2 (String.eqb_neq q n') N2); cbn [bind]; first [rewrite IH; reflexivity|rewrite <- IH; reflexivity|congruence].
Qed.
Lemma bind_assoc {A B C} (r : result xerr A) (f : A -> result xerr B) (g : B -> result xerr C) : bind (bind r f) g = bind r (fun a => bind (f a) g).
Proof. destruct r; reflexivity. Qed.
Lemma bind_ext {A B} (r : result xerr A) (f g : A -> result xerr B) : (forall a, f a = g a) -> bind r f = bind r g.
Proof. destruct r; cbn [bind]; auto. Qed.
Lemma set_attrs_perm fs a a' : good fs = true -> same_attrs a a' -> forall cur, set_attrs fs a cur = set_attrs fs a' cur.
Proof.
  intros G [->|(N & P)]; [reflexivity|]. revert N. induction P as [|[n s] a a' P IH|[n s] [n' s'] a|a b c P1 IH1 P2 IH2]; intros N cur.
  - reflexivity.
  - cbn [set_attrs]. apply bind_ext. intros v. apply IH. inversion N; assumption.
  - cbn [set_attrs]. 
    change (bind (set_attr fs n' s' cur) (fun c => bind (set_attr fs n s c) (set_attrs fs a)) = bind (set_attr fs n s cur) (fun c => bind (set_attr fs n' s' c) (set_attrs fs a))).
    rewrite <- !bind_assoc. f_equal. apply set_attr_swap; [exact G|]. intros ->. inversion N as [|? ? I]. apply I. left. reflexivity.
  - rewrite IH1 by exact N. apply IH2. eapply Permutation_NoDup; [apply Permutation_map, P1|exact N].
Qed.
Lemma last_attr_perm n a a' old : same_attrs a a' -> last_attr n a old = last_attr n a' old.
Proof.
  intros [->|(N & P)]; [reflexivity|]. revert old N. induction P as [|[m s] a a' P IH|[m s] [m' s'] a|a b c P1 IH1 P2 IH2]; intros old N.
  - reflexivity.
  - cbn [last_attr]. apply IH. inversion N; assumption.
  - cbn [last_attr]. destruct (String.eqb_spec m n) as [->|], (String.eqb_spec m' n) as [->|]; try reflexivity. exfalso. inversion N as [|? ? I]. apply I. left. reflexivity.
  - rewrite IH1 by exact N. apply IH2. eapply Permutation_NoDup; [apply Permutation_map, P1|exact N].
Qed.

(** ** Elements *)
Fixpoint kelems (ks : list kid) : list kid := match ks with [] => [] | KText _ :: ks' => kelems ks' | k :: ks' => k :: kelems ks' end.
(** Decoders that agree on the types that do not take the text, and on all types if the
    text is the same. *)
Definition agree (same : Prop) (d d' : xdecoder) : Prop := forall t n v, plain t = true -> reads t = false \/ same -> d t n v = d' t n v.
Inductive ksim : kid -> kid -> Prop :=
| ks_elem sp sp' l a a' ks ks' d d' : same_attrs a a' -> (has_text l = true -> chardata ks = chardata ks') -> Forall2 ksim (kelems ks) (kelems ks') -> agree (chardata ks = chardata ks') d d' ->
    ksim (KElem sp l a ks d) (KElem sp' l a' ks' d').
Lemma place_name parent l fs : forall i j, find_place parent l j fs = Some (Here i) -> exists k f ps o, i = (j + k)%nat /\ nth_error fs k = Some f /\ xml_info f = Some (mkX XElement ps l o).
Proof.
  induction fs as [|f fs IH]; intros i j E; [discriminate|]. cbn [find_place] in E. destruct (place_of parent l j f) as [q|] eqn:P.
  - injection E as ->. exists 0%nat, f. unfold place_of in P. destruct (xml_info f) as [[[] ps n o]|]; try discriminate. destruct parent as [p|].
    + destruct ps as [|r [|? ?]]; try discriminate. destruct (String.eqb r p && String.eqb n l)%bool eqn:B; [|discriminate]. apply andb_prop in B as (_ & B). apply String.eqb_eq in B. subst n.
      injection P as <-. exists [r], o. rewrite Nat.add_0_r. auto.
    + destruct ps as [|r ps]; [|destruct (String.eqb r l); discriminate]. destruct (String.eqb_spec n l) as [->|]; [|discriminate]. injection P as <-. exists [], o. rewrite Nat.add_0_r. auto.
  - apply IH in E as (k & g & ps & o & -> & N & X). exists (S k), g, ps, o. rewrite Nat.add_succ_comm. auto.
Qed.
Lemma good_nth fs i f : good fs = true -> nth_error fs i = Some f -> plain (f_ty f) = true /\ text_good f = true.
Proof. intros G N. unfold good in G. rewrite forallb_forall in G. apply nth_error_In in N. specialize (G _ N). apply andb_prop in G as (G & H). apply andb_prop in G as (G & _). auto. Qed.
Lemma at_sim fs i parent l d d' n cur (same : Prop) : good fs = true -> find_place parent l 0 fs = Some (Here i) -> (has_text l = true -> same) -> agree same d d' -> dec_at fs i d n cur = dec_at fs i d' n cur.
Proof.
  intros G P T A. apply place_name in P as (k & f & ps & o & -> & N & X). cbn [Nat.add]. unfold dec_at. rewrite N. destruct (nth_error cur k); [|reflexivity]. destruct (good_nth fs k f G N) as (Pl & Te).
  rewrite A; [reflexivity|exact Pl|]. unfold text_good in Te. rewrite X in Te. destruct (reads (f_ty f)); [right; apply T; exact Te|left; reflexivity].
Qed.
Lemma inside_elems fs p n ks : forall cur, dec_inside fs p n ks cur = dec_inside fs p n (kelems ks) cur.
Proof. induction ks as [|[s|sp l a ks' d] ks IH]; intros cur; [reflexivity|apply IH|]. cbn [kelems dec_inside]. apply bind_ext, IH. Qed.
Lemma inside_sim fs p n ks ks' : good fs = true -> Forall2 ksim (kelems ks) (kelems ks') -> forall cur, dec_inside fs p n ks cur = dec_inside fs p n ks' cur.
Proof.
  intros G H cur. rewrite (inside_elems _ _ _ ks), (inside_elems _ _ _ ks'). revert cur. induction H as [|k k' l l' K _ IH]; intros cur; [reflexivity|].
  destruct K as [sp sp' lo a a' k k' d d' Sa C F A]. cbn [dec_inside]. destruct (find_place (Some p) lo 0 fs) as [[i|q]|] eqn:P; try apply bind_ext, IH. rewrite (at_sim fs i _ _ d d' n cur _ G P C A). apply bind_ext, IH.
Qed.
Lemma kids_elems fs n ks : forall cur, dec_kids fs n ks cur = dec_kids fs n (kelems ks) cur.
Proof. induction ks as [|[s|sp l a ks' d] ks IH]; intros cur; [reflexivity|apply IH|]. cbn [kelems dec_kids]. apply bind_ext, IH. Qed.
Lemma kids_sim fs n ks ks' : good fs = true -> Forall2 ksim (kelems ks) (kelems ks') -> forall cur, dec_kids fs n ks cur = dec_kids fs n ks' cur.
Proof.
  intros G H cur. rewrite (kids_elems _ _ ks), (kids_elems _ _ ks'). revert cur. induction H as [|k k' l l' K _ IH]; intros cur; [reflexivity|].
  destruct K as [sp sp' lo a a' k k' d d' Sa C F A]. cbn [dec_kids].
  destruct (find_place None lo 0 fs) as [[i|q]|] eqn:P; [rewrite (at_sim fs i _ _ d d' n cur _ G P C A)|rewrite (inside_sim fs q n k k' G F)|]; apply bind_ext, IH.
Qed.
Lemma set_name_none fs sp l : unnamed fs = true -> forall cur, set_name fs sp l cur = cur.
Proof.
  induction fs as [|f fs IH]; intros U [|c cur]; try reflexivity. cbn [unnamed forallb] in U. apply andb_prop in U as (F & U). cbn [set_name].
  destruct (String.eqb (f_name f) "XMLName"); [discriminate F|]. rewrite (IH U). reflexivity.
Qed.
Lemma chars_none fs s s' : chars fs = false -> forall cur, set_chardata fs s cur = set_chardata fs s' cur.
Proof.
  induction fs as [|f fs IH]; intros U [|c cur]; try reflexivity. cbn [chars existsb] in U. apply Bool.orb_false_iff in U as (F & U). cbn [set_chardata]. rewrite (IH U cur).
  destruct (xml_info f) as [[[] ps n o]|]; try discriminate F; reflexivity.
Qed.
Definition sims (a a' : list (string * string)) (ks ks' : list kid) : Prop := same_attrs a a' /\ Forall2 ksim (kelems ks) (kelems ks').
Lemma struct_sim fs sp sp' l a a' ks ks' n cur : good fs = true -> unnamed fs = true \/ sp = sp' -> chars fs = false \/ chardata ks = chardata ks' -> sims a a' ks ks' ->
  dec_struct fs sp l a ks n cur = dec_struct fs sp' l a' ks' n cur.
Proof.
  intros G U C (S & F). unfold dec_struct. destruct (match xml_name fs with Some m => negb (String.eqb m l) | None => false end); [reflexivity|].
  assert (Q : set_name fs sp l cur = set_name fs sp' l cur) by (destruct U as [U| ->]; [rewrite !set_name_none by exact U|]; reflexivity). rewrite Q, (set_attrs_perm fs a a' G S).
  apply bind_ext. intros c1. rewrite (kids_sim fs n ks ks' G F). apply bind_ext. intros c2. f_equal. destruct C as [C| ->]; [apply chars_none, C|reflexivity].
Qed.
Lemma raw_sim fs sp sp' l a a' ks ks' : (good fs && unnamed fs)%bool = true -> chars fs = false \/ chardata ks = chardata ks' -> sims a a' ks ks' -> decode_raw fs sp l a ks = decode_raw fs sp' l a' ks'.
Proof. intros G C S. apply andb_prop in G as (G & U). apply struct_sim; auto. Qed.
Lemma fresh_sim (same : Prop) d d' t : plain t = true -> reads t = false \/ same -> agree same d d' -> decode_fresh d t = decode_fresh d' t.
Proof. intros P R A. apply A; assumption. Qed.
Lemma each_elems {S} (f : kid -> S -> result xerr S) ks : forall s, each_kid f ks s = each_kid f (kelems ks) s.
Proof. induction ks as [|[t|sp l a ks' d] ks IH]; intros s; [reflexivity|apply IH|]. cbn [kelems each_kid]. apply bind_ext, IH. Qed.
Lemma each_sim {S} (f : kid -> S -> result xerr S) ks ks' : (forall k k' s, ksim k k' -> f k s = f k' s) -> Forall2 ksim (kelems ks) (kelems ks') -> forall s, each_kid f ks s = each_kid f ks' s.
Proof.
  intros E H s. rewrite (each_elems f ks), (each_elems f ks'). revert s. induction H as [|k k' l l' K _ IH]; intros s; [reflexivity|].
  pose proof (E k k' s K) as Q. destruct K. cbn [each_kid]. rewrite Q. apply bind_ext, IH.
Qed.
Section Walk.
  Context {S : Type} (enter : kid -> S -> result xerr (entered S)) (leave : string -> S -> result xerr S).
  Hypothesis He : forall k k' s, ksim k k' -> enter k s = enter k' s.
  Definition inner_walk := (fix go (ks : list kid) (s : S) : result xerr S := match ks with [] => Ok s | k' :: ks' => bind (walk enter leave k' s) (go ks') end).
  Lemma inner_elems ks : forall s, inner_walk ks s = inner_walk (kelems ks) s.
  Proof. induction ks as [|[t|sp l a ks' d] ks IH]; intros s; [reflexivity|exact (IH s)|]. cbn [kelems]. change (bind (walk enter leave (KElem sp l a ks' d) s) (inner_walk ks) = bind (walk enter leave (KElem sp l a ks' d) s) (inner_walk (kelems ks))). apply bind_ext, IH. Qed.
  Lemma inner_all ks : forall s, walk_all enter leave ks s = inner_walk ks s.
  Proof. induction ks as [|k ks IH]; intros s; [reflexivity|]. cbn [walk_all]. change (bind (walk enter leave k s) (walk_all enter leave ks) = bind (walk enter leave k s) (inner_walk ks)). apply bind_ext, IH. Qed.
  Lemma inner_sim ks ks' : Forall2 (fun k k' => ksim k k' /\ forall s, walk enter leave k s = walk enter leave k' s) ks ks' -> forall s, inner_walk ks s = inner_walk ks' s.
  Proof.
    induction 1 as [|k k' l l' (_ & K) _ IH]; intros s; [reflexivity|]. change (bind (walk enter leave k s) (inner_walk l) = bind (walk enter leave k' s) (inner_walk l')). rewrite K. apply bind_ext, IH.
  Qed.
  Lemma walk_sim k : forall k', ksim k k' -> forall s, walk enter leave k s = walk enter leave k' s.
  Proof.
    induction k as [t|sp l a ks d IH] using kid_induction; intros k' H s; [inversion H|]. pose proof (He _ _ s H) as E. inversion H as [? sp' ? ? a' ? ks' ? d' Sa C F A]; subst.
    change (bind (enter (KElem sp l a ks d) s) (fun r => match r with Decoded s1 => Ok s1 | Entered s1 => bind (inner_walk ks s1) (leave l) end) =
            bind (enter (KElem sp' l a' ks' d') s) (fun r => match r with Decoded s1 => Ok s1 | Entered s1 => bind (inner_walk ks' s1) (leave l) end)).
    rewrite E. apply bind_ext. intros [s1|s1]; [reflexivity|]. f_equal. rewrite (inner_elems ks), (inner_elems ks'). apply inner_sim.
    assert (IH' : Forall (fun k => forall k', ksim k k' -> forall s, walk enter leave k s = walk enter leave k' s) (kelems ks)).
    { clear - IH. induction IH as [|[t|] ks K _ IH]; [constructor|exact IH|]. constructor; assumption. }
    clear - F IH'. induction F as [|k k' l l' K _ IHF]; [constructor|]. inversion IH'; subst. constructor; [|apply IHF; assumption]. split; [exact K|]. intros s. auto.
  Qed.
  Lemma walk_all_sim ks ks' : Forall2 ksim (kelems ks) (kelems ks') -> forall s, walk_all enter leave ks s = walk_all enter leave ks' s.
  Proof.
    intros F s. rewrite !inner_all, (inner_elems ks), (inner_elems ks'). apply inner_sim. clear s. induction F as [|k k' l l' K _ IH]; [constructor|]. constructor; [|exact IH]. split; [exact K|]. apply walk_sim, K.
  Qed.
End Walk.

(** ** The UnmarshalXML methods *)
(** One child element: by its name, it has text or is decoded into a type that takes none. *)
Ltac take_fresh A C := match type of A with agree _ ?d _ => match goal with |- context [decode_fresh d ?t] =>
  first [rewrite (fresh_sim _ _ _ t eq_refl (or_introl eq_refl) A)|rewrite (fresh_sim _ _ _ t eq_refl (or_intror C) A)] end end.
Ltac by_name C := match goal with |- context [String.eqb ?l ?n] => is_var l; let E := fresh "E" in destruct (String.eqb_spec l n) as [E|_]; [subst l; try (specialize (C eq_refl))|] end.
Lemma environment_sim k k' s : ksim k k' -> dec_environment k s = dec_environment k' s.
Proof. intros H. destruct H as [sp sp' l a a' ks ks' d d' Sa C F A]. cbn [dec_environment]. repeat (by_name C; [take_fresh A C; reflexivity|]). reflexivity. Qed.
Lemma choice_sim k k' s : ksim k k' -> dec_choice k s = dec_choice k' s.
Proof.
  intros H. destruct H as [sp sp' l a a' ks ks' d d' Sa C F A]. assert (M : sims a a' ks ks') by (split; assumption). cbn [dec_choice].
  by_name C; [rewrite (raw_sim fields_licenseExpressionXML sp sp' _ a a' ks ks' eq_refl (or_intror C) M); reflexivity|].
  by_name C; [rewrite (raw_sim fields_licenseExpressionDetailedXML sp sp' _ a a' ks ks' eq_refl (or_intror C) M); reflexivity|].
  by_name C; [take_fresh A C; reflexivity|]. reflexivity.
Qed.
Lemma tools_sim k k' s : ksim k k' -> dec_tools k s = dec_tools k' s.
Proof.
  intros H. destruct H as [sp sp' l a a' ks ks' d d' Sa C F A]. assert (M : sims a a' ks ks') by (split; assumption). destruct s as [[x y] z]. cbn [dec_tools].
  by_name C; [take_fresh A C; reflexivity|]. rewrite (raw_sim fields_toolsChoiceUnmarshalXML sp sp' l a a' ks ks' eq_refl (or_introl eq_refl) M). reflexivity.
Qed.
Lemma evidence_sim k k' s : ksim k k' -> dec_evidence k s = dec_evidence k' s.
Proof.
  intros H. destruct H as [sp sp' l a a' ks ks' d d' Sa C F A]. assert (M : sims a a' ks ks') by (split; assumption). destruct s as [ids [|o [|c [|li [|co [|? ?]]]]]]; try reflexivity. cbn [dec_evidence].
  rewrite (raw_sim fields_EvidenceUnmarshalXML sp sp' l a a' ks ks' eq_refl (or_introl eq_refl) M). repeat (by_name C; [first [take_fresh A C; reflexivity|reflexivity]|]). reflexivity.
Qed.
Lemma data_sim k k' s : ksim k k' -> data_enter k s = data_enter k' s.
Proof.
  intros H. destruct H as [sp sp' l a a' ks ks' d d' Sa C F A].
  destruct s as [[|x1 [|x2 [|x3 [|x4 [|x5 [|x6 [|x7 [|? ?]]]]]]]]| |]; try reflexivity; cbn [data_enter];
    repeat (by_name C; [first [take_fresh A C; rewrite ?(last_attr_perm "flow" a a' _ Sa); reflexivity|reflexivity]|]); reflexivity.
Qed.
Lemma defs_sim k k' s : ksim k k' -> defs_enter k s = defs_enter k' s.
Proof. intros H. destruct H as [sp sp' l a a' ks ks' d d' Sa C F A]. destruct s; try reflexivity; cbn [defs_enter]; repeat (by_name C; [first [take_fresh A C; reflexivity|reflexivity]|]); reflexivity. Qed.
Lemma method_sim m t sp sp' l a a' ks ks' cur : plain t = true -> match m with MCopyright | MSpecVersion | MIKEv2 => false | _ => true end = true \/ chardata ks = chardata ks' -> sims a a' ks ks' ->
  unmarshal m t sp l a ks cur = unmarshal m t sp' l a' ks' cur.
Proof.
  intros P C M. pose proof M as (Sa & F). destruct m; cbn [unmarshal]; try reflexivity;
    try (destruct C as [C|C]; [discriminate C|rewrite C; reflexivity]);
    try (repeat match goal with |- context [match ?x with _ => _ end] => is_var x; destruct x; try reflexivity end;
         match goal with |- context [decode_raw ?fs sp _ _ _] => rewrite (raw_sim fs sp sp' l a a' ks ks' eq_refl (or_introl eq_refl) M) end; reflexivity).
  - rewrite (each_sim _ ks ks' environment_sim F). reflexivity.
  - rewrite (each_sim _ ks ks' choice_sim F). reflexivity.
  - destruct C as [C|C]; [discriminate C|]. destruct cur as [| | | | | |[|ref rest]]; try reflexivity. rewrite (raw_sim _ sp sp' l a a' ks ks'); [reflexivity| |right; exact C|exact M].
    pose proof (kind_plain t) as K. unfold fields_of. destruct (kind_of t) as [| | | | | |fs|]; try reflexivity. destruct K as (G & U). specialize (U P).
    destruct fs as [|f fs]; [reflexivity|]. cbn [good unnamed forallb] in G, U. apply andb_prop in G as (_ & G). apply andb_prop in U as (_ & U). cbn [tl good unnamed forallb]. unfold good, unnamed in *. rewrite G, U. reflexivity.
  - rewrite (each_sim _ ks ks' tools_sim F). reflexivity.
  - rewrite (each_sim _ ks ks' evidence_sim F). reflexivity.
  - destruct cur as [| | | | | |[|x1 [|x2 [|x3 [|x4 [|x5 [|x6 [|x7 [|? ?]]]]]]]]]; try reflexivity.
    rewrite (walk_all_sim _ _ data_sim ks ks' F), (last_attr_perm "name" a a' x3 Sa), (last_attr_perm "description" a a' x4 Sa). reflexivity.
  - destruct cur as [| | | | | |[|x1 [|x2 [|? ?]]]]; try reflexivity. rewrite (walk_all_sim _ _ defs_sim ks ks' F). reflexivity.
Qed.
Lemma value_sim sp sp' l a a' ks ks' t n cur : plain t = true -> reads_value t = false \/ chardata ks = chardata ks' -> sims a a' ks ks' -> dec_value sp l a ks t n cur = dec_value sp' l a' ks' t n cur.
Proof.
  intros P R M. unfold dec_value. unfold reads_value in R. destruct (unmarshaler t) eqn:U; try (apply method_sim; [assumption|destruct R as [R|R]; [left; first [reflexivity|discriminate R]|right; exact R]|assumption]).
  pose proof (kind_plain t) as K. destruct (kind_of t) as [| | | | | |fs|]; try (destruct R as [R|R]; [discriminate R|rewrite R; reflexivity]). destruct K as (G & N). rewrite (struct_sim fs sp sp' l a a' ks ks'); auto.
Qed.
Lemma slice_sim {Lim : Limit} sp sp' l a a' ks ks' t n cur : plain t = true -> reads_slice t = false \/ chardata ks = chardata ks' -> sims a a' ks ks' -> dec_slice sp l a ks t n cur = dec_slice sp' l a' ks' t n cur.
Proof.
  intros P R M. unfold dec_slice. unfold reads_slice in R. pose proof (kind_plain t) as K. destruct (unmarshaler t); try (apply value_sim; assumption). destruct (kind_of t) as [| | | | |t'| |]; try (apply value_sim; assumption).
  rewrite (value_sim sp sp' l a a' ks ks' t'); auto.
Qed.
Lemma elem_sim {Lim : Limit} sp sp' l a a' ks ks' : sims a a' ks ks' -> agree (chardata ks = chardata ks') (dec_elem sp l a ks) (dec_elem sp' l a' ks').
Proof.
  intros M t n cur P R. unfold dec_elem. unfold reads in R. pose proof (kind_plain t) as K. destruct (kind_of t) as [| | | |t'| | |]; try (rewrite (slice_sim sp sp' l a a' ks ks' t n cur P R M); reflexivity).
  rewrite (slice_sim sp sp' l a a' ks ks' t'); auto.
Qed.

(** ** Whole documents *)
Lemma waiting_text {Lim : Limit} ks : chardata (map waiting ks) = own_text ks.
Proof. induction ks as [|[s|sp l a ks'] ks IH]; [reflexivity| |]; cbn [map waiting chardata own_text]; rewrite IH; reflexivity. Qed.
Lemma waiting_elems {Lim : Limit} ks : kelems (map waiting ks) = map waiting (own_elements ks).
Proof. induction ks as [|[s|sp l a ks'] ks IH]; [reflexivity|exact IH|]. cbn [map waiting kelems own_elements]. rewrite IH. reflexivity. Qed.
Lemma own_forall (P : xml -> Prop) ks : Forall P ks -> Forall P (own_elements ks).
Proof. induction 1 as [|[s|sp l a ks'] ks K _ IH]; [constructor|exact IH|]. constructor; assumption. Qed.
Lemma has_text_in l : has_text l = true -> In l text_elements.
Proof. unfold has_text. intros H. apply existsb_exists in H as (m & I & E). apply String.eqb_eq in E. subst m. exact I. Qed.
Lemma waiting_sims {Lim : Limit} ks ks' a a' : Forall2 (fun x y => ksim (waiting x) (waiting y)) (own_elements ks) (own_elements ks') -> same_attrs a a' -> sims a a' (map waiting ks) (map waiting ks').
Proof. intros F Sa. split; [exact Sa|]. rewrite !waiting_elems. clear - F. induction F; constructor; assumption. Qed.
Lemma waiting_sim {Lim : Limit} x : forall y, alike x y -> ksim (waiting x) (waiting y).
Proof.
  induction x as [s|sp l a ks IH] using xml_induction; intros y H; inversion H as [? sp' ? ? a' ? ks' Sa T F]; subst.
  assert (G : Forall2 (fun x y => ksim (waiting x) (waiting y)) (own_elements ks) (own_elements ks')).
  { apply own_forall in IH. clear - F IH. induction F as [|x y l l' X _ IHF]; [constructor|]. inversion IH; subst. constructor; auto. }
  pose proof (waiting_sims ks ks' a a' G Sa) as M. cbn [waiting]. constructor; [exact Sa| |apply M|apply elem_sim, M]. rewrite !waiting_text. intros I. apply T, has_text_in, I.
Qed.
Theorem alike_decoded entries x y b : same_document x y -> bom_of_xml entries x b = bom_of_xml entries y b.
Proof.
  intros (H & R). destruct H as [sp sp' l a a' ks ks' Sa T F]. cbn [space_of] in R. subst sp'.
  assert (M : sims a a' (map (@waiting go_limit) ks) (map (@waiting go_limit) ks')).
  { apply waiting_sims; [|exact Sa]. clear - F. induction F; constructor; [apply waiting_sim; assumption|assumption]. }
  unfold bom_of_xml, bom_within, xdec. cbn [waiting]. f_equal. unfold dec_elem. destruct (@limit go_limit <=? 0)%N; [reflexivity|]. change (kind_of (TRef "BOM")) with (KStruct fields_BOM).
  cbv iota. unfold dec_slice. change (unmarshaler (TRef "BOM")) with MNone. change (kind_of (TRef "BOM")) with (KStruct fields_BOM). cbv iota. unfold dec_value.
  change (unmarshaler (TRef "BOM")) with MNone. change (kind_of (TRef "BOM")) with (KStruct fields_BOM). cbv iota. f_equal.
  apply struct_sim; [vm_compute; reflexivity|right; reflexivity|left; vm_compute; reflexivity|exact M].
Qed.
