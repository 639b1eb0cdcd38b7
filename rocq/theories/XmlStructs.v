(** A struct written with the fields [es] and read with the fields [ds]. *)
From Verif Require Import Base Types Univ TypeTable Wt ReifyBase Consts Numbers JsonModel JsonProofs JsonHooks XmlModel XmlBack XmlTable XmlSpec XmlValues XmlProofs XmlPairs.
From Coq Require Import Lia.
Local Open Scope string_scope.
Section Limits.
Context {Lim : Limit}.

Definition moved (f : field) : bool := match xml_info f with None | Some (mkX XCharData _ _ _) => false | _ => true end.
Definition attribute (f : field) : bool := match xml_info f with Some (mkX XAttribute _ _ _) => true | _ => false end.
Fixpoint spread (p : field -> bool) (m : list nat) (es : list field) (ns : list bnode) (cur : list val) : list val :=
  match m, es, ns with
  | i :: m', f :: es', n :: ns' => spread p m' es' ns' (if p f then set_nth i (back_field f n) cur else cur)
  | _, _, _ => cur
  end.
Definition owner (p : field -> bool) (m : list nat) (es : list field) (vs : list val) (i : nat) (f : field) (v : val) : Prop :=
  exists j, nth_error m j = Some i /\ nth_error es j = Some f /\ nth_error vs j = Some v /\ p f = true.
Definition ownerless (p : field -> bool) (m : list nat) (es : list field) (i : nat) : Prop :=
  forall j f, nth_error m j = Some i -> nth_error es j = Some f -> p f = false.

Lemma owner_dec p m i : forall es vs, length es = length m -> length vs = length m ->
  (exists f v, owner p m es vs i f v) \/ ownerless p m es i.
Proof.
  induction m as [|k m IH]; intros es vs L1 L2; [right; intros [|j] f H; discriminate|].
  destruct es as [|f es], vs as [|v vs]; try discriminate. injection L1 as L1. injection L2 as L2.
  destruct (IH es vs L1 L2) as [(f' & v' & j & H)|N]; [left; exists f', v', (S j); exact H|].
  destruct (Nat.eq_dec k i) as [->|Ne].
  - destruct (p f) eqn:P; [left; exists f, v, 0%nat; auto|]. right. intros [|j] g H1 H2; [injection H2 as <-; exact P|eapply N; eassumption].
  - right. intros [|j] g H1 H2; [injection H1 as ->; congruence|eapply N; eassumption].
Qed.

Lemma spread_length p m : forall es ns cur, length (spread p m es ns cur) = length cur.
Proof. induction m as [|i m IH]; intros [|f es] [|n ns] cur; auto. cbn. rewrite IH. destruct (p f); [apply set_nth_length|reflexivity]. Qed.
Lemma not_in_existsb i m : existsb (Nat.eqb i) m = false -> forall j, nth_error m j <> Some i.
Proof.
  intros H j N. apply nth_error_In in N. assert (T : existsb (Nat.eqb i) m = true) by (apply existsb_exists; exists i; split; [exact N|apply Nat.eqb_refl]). congruence.
Qed.
Lemma spread_none p i m : forall es vs cur, ownerless p m es i -> nth_error (spread p m es (map back_of vs) cur) i = nth_error cur i.
Proof.
  induction m as [|k m IH]; intros [|f es] [|v vs] cur N; auto. cbn [spread map]. rewrite IH.
  - destruct (p f) eqn:P; [|reflexivity]. apply nth_set_other. intros ->. specialize (N 0%nat f eq_refl eq_refl). congruence.
  - intros j g. apply (N (S j)).
Qed.
Lemma spread_own ds p i m : forall es vs cur f v, pair_facts ds es m = true -> (i < length cur)%nat -> owner p m es vs i f v ->
  nth_error (spread p m es (map back_of vs) cur) i = Some (back_field f (back_of v)).
Proof.
  induction m as [|k m IH]; intros es vs cur f v F L (j & M & E & V & P); [destruct j; discriminate|].
  destruct es as [|f0 es]; [destruct j; discriminate|]. destruct vs as [|v0 vs]; [destruct j; discriminate|].
  cbn [pair_facts] in F. apply andb_prop in F as (F & Fs). apply andb_prop in F as (_ & Nd). apply negb_true_iff in Nd.
  cbn [spread map]. destruct j as [|j].
  - injection M as ->. injection E as ->. injection V as ->. rewrite spread_none.
    + rewrite P. destruct (nth_error cur i) as [c|] eqn:C; [|apply nth_error_None in C; lia]. eapply nth_set_here, C.
    + intros j g H. exfalso. exact (not_in_existsb _ _ Nd j H).
  - apply (IH es vs _ f v Fs); [|exists j; auto]. destruct (p f0); [rewrite set_nth_length|]; exact L.
Qed.

(** ** Facts about the pairing *)
Lemma pair_facts_length ds es : forall m, pair_facts ds es m = true -> length es = length m.
Proof. induction es as [|f es IH]; intros [|i m] H; try discriminate; [reflexivity|]. cbn in *. apply andb_prop in H as (_ & H). f_equal. auto. Qed.
Lemma pair_fact_at ds : forall es m, pair_facts ds es m = true -> forall j f i, nth_error es j = Some f -> nth_error m j = Some i -> pair_fact ds i f = true.
Proof.
  induction es as [|f0 es IH]; intros [|i0 m] H j f i E M; try discriminate; [destruct j; discriminate|].
  cbn [pair_facts] in H. apply andb_prop in H as (H & Hs). apply andb_prop in H as (H & _). destruct j as [|j].
  - injection E as <-. injection M as <-. exact H.
  - apply (IH m Hs j f i E M).
Qed.
Lemma only_at_here p : forall i fs g, only_at p i fs = true -> nth_error fs i = Some g -> p g = true.
Proof.
  induction i as [|i IH]; intros [|f fs] g H G; try discriminate; cbn in *.
  - injection G as <-. apply andb_prop in H as (H & _). exact H.
  - apply andb_prop in H as (_ & H). eauto.
Qed.
Lemma only_at_other p : forall i fs k g, only_at p i fs = true -> nth_error fs k = Some g -> k <> i -> p g = false.
Proof.
  induction i as [|i IH]; intros [|f fs] [|k] g H G N; try discriminate; try congruence; cbn in *.
  - apply andb_prop in H as (_ & H). apply negb_true_iff in H. apply nth_error_In in G.
    destruct (p g) eqn:P; [|reflexivity]. assert (existsb p fs = true) by (apply existsb_exists; eauto). congruence.
  - injection G as <-. apply andb_prop in H as (H & _). apply negb_true_iff in H. exact H.
  - apply andb_prop in H as (_ & H). eapply IH; eauto.
Qed.
Lemma same_ty_at ds i t g : same_ty ds i t = true -> nth_error ds i = Some g -> f_ty g = t.
Proof. unfold same_ty. intros H G. rewrite G in H. apply ty_eqb_eq, H. Qed.

(** ** Attributes *)
Lemma attr_name f v x : In x (enc_attr f v) -> exists n, xml_info f <> None /\ attribute f = true /\ is_attr n f = true /\ fst x = n.
Proof.
  unfold enc_attr, attribute, is_attr. destruct (xml_info f) as [[[] ps n o]|]; try contradiction. intros H. exists n. rewrite String.eqb_refl.
  repeat split; try discriminate. destruct (o && empty_value (nval v))%bool; [contradiction|].
  destruct (nval v) as [| | | |[x'|]| |]; try contradiction; destruct H as [<-|[]]; reflexivity.
Qed.
Lemma field_attrs_app f a : forall b c, field_attrs f (a ++ b) c = bind (field_attrs f a c) (field_attrs f b).
Proof.
  induction a as [|(n & s) a IH]; intros b c; [reflexivity|]. cbn [app field_attrs]. destruct (attr_step f n s c); [|reflexivity]. cbn [bind]. apply IH.
Qed.
Lemma attr_skip f n s c : is_attr n f = false -> attr_step f n s c = Ok c.
Proof. unfold is_attr, attr_step. destruct (xml_info f) as [[[] ps m o]|]; try reflexivity. intros ->. reflexivity. Qed.
Lemma field_attrs_skip f l c : (forall x, In x l -> is_attr (fst x) f = false) -> field_attrs f l c = Ok c.
Proof.
  induction l as [|(n & s) l IH]; intros H; [reflexivity|]. cbn [field_attrs]. rewrite attr_skip by (apply (H (n, s)); left; reflexivity).
  cbn [bind]. apply IH. intros x X. apply H. right. exact X.
Qed.
Lemma attrs_element g l c : attribute g = false -> field_attrs g l c = Ok c.
Proof.
  intros A. apply field_attrs_skip. intros x _. unfold is_attr. unfold attribute in A. destruct (xml_info g) as [[[] ps m o]|]; [discriminate| | |]; reflexivity.
Qed.
Lemma own_attr ds i f n : pair_fact ds i f = true -> is_attr n f = true -> only_at (is_attr n) i ds = true.
Proof.
  intros H N. unfold pair_fact in H. unfold is_attr in N. destruct (xml_info f) as [[[] ps m o]|]; try discriminate. apply String.eqb_eq in N. subst m.
  apply andb_prop in H as (_ & H). apply andb_prop in H as (_ & H). exact H.
Qed.
Lemma attr_of_other ds i g k f v x : nth_error ds i = Some g -> pair_fact ds k f = true -> k <> i -> In x (enc_attr f v) -> is_attr (fst x) g = false.
Proof.
  intros G P N X. apply attr_name in X as (n & _ & _ & A & E). rewrite E. eapply only_at_other; [eapply own_attr; eassumption|exact G|congruence].
Qed.
Lemma attrs_none ds i g c : nth_error ds i = Some g -> forall es m vs, pair_facts ds es m = true -> ownerless attribute m es i ->
  field_attrs g (enc_attrs es (map annotate vs)) c = Ok c.
Proof.
  intros G. induction es as [|f es IH]; intros [|k m] [|v vs] F N; try discriminate; try reflexivity.
  cbn [pair_facts] in F. apply andb_prop in F as (F & Fs). apply andb_prop in F as (F & _). cbn [enc_attrs map].
  rewrite field_attrs_app, field_attrs_skip.
  - cbn [bind]. apply (IH m vs Fs). intros j g'. apply (N (S j)).
  - intros x X. destruct (Nat.eq_dec k i) as [->|Ne].
    + pose proof (N 0%nat f eq_refl eq_refl) as A. apply attr_name in X as (n & _ & A' & _). congruence.
    + eapply attr_of_other; eassumption.
Qed.
Lemma attrs_own ds i g c : nth_error ds i = Some g -> forall es m vs f v, pair_facts ds es m = true -> owner attribute m es vs i f v ->
  field_attrs g (enc_attrs es (map annotate vs)) c = field_attrs g (enc_attr f (annotate v)) c.
Proof.
  intros G. induction es as [|f0 es IH]; intros [|k m] [|v0 vs] f v F (j & M & E & V & P); try discriminate; try (destruct j; discriminate).
  cbn [pair_facts] in F. apply andb_prop in F as (F & Fs). apply andb_prop in F as (F & Nd). apply negb_true_iff in Nd. cbn [enc_attrs map].
  rewrite field_attrs_app. destruct j as [|j].
  - injection M as ->. injection E as ->. injection V as ->. destruct (field_attrs g (enc_attr f (annotate v)) c) as [c'|]; [|reflexivity].
    cbn [bind]. apply (attrs_none ds i g c' G es m vs Fs). intros j f' H. exfalso. exact (not_in_existsb _ _ Nd j H).
  - rewrite field_attrs_skip.
    + cbn [bind]. apply (IH m vs f v Fs). exists j. auto.
    + intros x X. eapply attr_of_other; try eassumption. intros ->. exact (not_in_existsb _ _ Nd j M).
Qed.

Lemma nval_annotate v : nval (annotate v) = v. Proof. destruct v; reflexivity. Qed.
Lemma bval_back v : bval (back_of v) = v. Proof. destruct v; reflexivity. Qed.

Definition simple_val (v : val) : bool := match v with VStr _ | VInt _ | VBool _ | VFlt _ => true | _ => false end.
Lemma simple_wt t v : is_simple t = true -> wt t v -> simple_val v = true.
Proof. unfold is_simple. intros K W. destruct v; cbn [wt] in W; try reflexivity; destruct (kind_of t); try contradiction; discriminate. Qed.
Lemma back_simple t v omit : is_simple t = true -> plain_marshaler t = true -> wt t v -> bback (back_of v) t omit = Some (cleaned v).
Proof.
  intros K M W. pose proof (simple_wt t v K W) as Sv. unfold plain_marshaler in M.
  destruct v; try discriminate; cbn [back_of bback back_value cleaned]; destruct (marshaler t) eqn:Mt; try discriminate; try reflexivity; exfalso;
    cbn [wt] in W; unfold marshaler in Mt; destruct t as [| | | | |t|t|nm]; try discriminate; clear - Mt W;
    assert (Nm : nm = "BOMReference") by (destruct (assoc nm xml_methods) as [m|] eqn:A; [subst m|discriminate];
      unfold xml_methods in A; cbn [assoc] in A;
      repeat match type of A with (if String.eqb ?a ?b then _ else _) = _ => destruct (String.eqb_spec a b); [congruence|] end; discriminate);
    subst nm; discriminate W.
Qed.
Lemma plain_not_version t : plain_marshaler t = true -> marshaler t <> MSpecVersion.
Proof. unfold plain_marshaler. destruct (marshaler t); congruence. Qed.
Lemma simple_ty_cases t : field_ty t = true -> simple_ty t = true ->
  is_simple t = true /\ (forall t', kind_of t <> KPtr t') \/ exists t', t = TPtr t' /\ is_simple t' = true.
Proof.
  unfold simple_ty, is_simple. intros F S.
  destruct t as [| | | | |t|t|n]; try (left; split; [reflexivity|intros t' H; discriminate]).
  - right. exists t. split; [reflexivity|]. cbn in S. destruct (kind_of t); try discriminate; reflexivity.
  - discriminate.
  - left. cbn [field_ty] in F. pose proof (base_kind _ F) as K. destruct (kind_of (TRef n)); try contradiction; try discriminate; split; try reflexivity; discriminate.
Qed.
Lemma attr_back g f v n ps omit : field_ty (f_ty f) = true -> simple_ty (f_ty f) = true -> plain_marshaler (f_ty f) = true ->
  plain_marshaler (elem_ty (f_ty f)) = true ->
  xml_info f = Some (mkX XAttribute ps n omit) -> is_attr n g = true -> f_ty g = f_ty f -> wt (f_ty f) v -> xsane (f_ty f) v ->
  field_attrs g (enc_attr f (annotate v)) (zero_of (f_ty f)) = Ok (default (f_ty f) (checked_back (back_of v) (f_ty f) omit)).
Proof.
  intros Ft St Pm Pe X A T W S. unfold enc_attr, checked_back. rewrite X, nval_annotate, bval_back. destruct (omit && empty_value v)%bool; [reflexivity|].
  assert (Step : forall s c, field_attrs g [(n, s)] c = dec_attr (f_ty f) s).
  { intros s c. cbn [field_attrs]. unfold attr_step. unfold is_attr in A. destruct (xml_info g) as [[[] ps' m o]|]; try discriminate. rewrite A, T.
    destruct (dec_attr (f_ty f) s); reflexivity. }
  destruct (simple_ty_cases _ Ft St) as [(Is & Np)|(t' & Tp & Is)].
  - rewrite (back_simple _ _ _ Is Pm W). pose proof (simple_wt _ _ Is W) as Sv.
    assert (Dc : forall s, dec_attr (f_ty f) s = copy_value (f_ty f) s).
    { intros s. unfold dec_attr. destruct (kind_of (f_ty f)) eqn:K; try reflexivity. exfalso. eapply Np, eq_refl. }
    pose proof (copy_simple _ _ Is (plain_not_version _ Pm) W S) as C.
    destruct v; try discriminate Sv; unfold attr; rewrite Step, Dc, C; reflexivity.
  - rewrite Tp in *. apply wt_ptr in W as [->|(x & -> & W)]; [reflexivity|]. cbn [xsane] in S. change (elem_ty (TPtr t')) with t' in *.
    unfold attr. rewrite Step. unfold dec_attr. cbn [kind_of kind_base]. rewrite (copy_simple _ _ Is (plain_not_version _ Pe) W S). cbn [bind].
    assert (B : bback (back_of (VPtr (Some x))) (TPtr t') omit = option_map some_ptr (bback (back_of x) t' omit)) by reflexivity.
    rewrite B, (back_simple _ _ _ Is Pe W). reflexivity.
Qed.

(** ** Elements *)
Definition content (f : field) (v : val) : xout :=
  match xml_info f with
  | Some (mkX XElement _ name omit) => match v with VPtr None => Ok [] | _ => enc_checked (annotate v) (f_ty f) omit name end
  | _ => Ok []
  end.
Lemma content_ok f v els ps name omit : field_ty (f_ty f) = true -> wt (f_ty f) v -> xsane (f_ty f) v -> many_at (f_ty f) v ->
  xml_info f = Some (mkX XElement ps name omit) -> content f v = Ok els ->
  Forall (named (element_name (f_ty f) name)) els /\
  forall els' d, Forall2 seen els els' -> Forall (fun x => (d + 2 * tall x <= limit)%N) els' ->
    dec_seq (f_ty f) d els' (zero_of (f_ty f)) = Ok (default (f_ty f) (checked_back (back_of v) (f_ty f) omit)).
Proof.
  intros Ft W S E X C. unfold content in C. rewrite X in C. unfold checked_back. rewrite bval_back.
  assert (Nil : els = [] -> bback (back_of v) (f_ty f) omit = None \/ (omit && empty_value v)%bool = true ->
    Forall (named (element_name (f_ty f) name)) els /\
    forall els' d, Forall2 seen els els' -> Forall (fun x => (d + 2 * tall x <= limit)%N) els' ->
    dec_seq (f_ty f) d els' (zero_of (f_ty f)) = Ok (default (f_ty f) (if (omit && empty_value v)%bool then None else bback (back_of v) (f_ty f) omit))).
  { intros -> H. split; [constructor|]. intros els' d F _. inversion F; subst. destruct H as [H| ->]; [rewrite H; destruct (omit && empty_value v)%bool|]; reflexivity. }
  assert (G : enc_checked (annotate v) (f_ty f) omit name = Ok els -> Forall (named (element_name (f_ty f) name)) els /\
    forall els' d, Forall2 seen els els' -> Forall (fun x => (d + 2 * tall x <= limit)%N) els' ->
    dec_seq (f_ty f) d els' (zero_of (f_ty f)) = Ok (default (f_ty f) (if (omit && empty_value v)%bool then None else bback (back_of v) (f_ty f) omit))).
  { unfold enc_checked. rewrite nval_annotate. destruct (omit && empty_value v)%bool eqn:O; intros H; [injection H as <-; apply Nil; auto|].
    apply E; assumption. }
  destruct v as [| | | |[x|]| |]; try (apply G, C). apply Nil; [injection C as <-; reflexivity|]. left. reflexivity.
Qed.
Lemma field_content f v s : enc_field f (annotate v) = Ok s -> forall ps name omit, xml_info f = Some (mkX XElement ps name omit) ->
  exists els, content f v = Ok els /\ (s = wrap ps els \/ (s = [] /\ els = [])).
Proof.
  unfold enc_field, content. intros H ps name omit X. rewrite X in *. rewrite nval_annotate in H.
  destruct v as [| | | |[x|]| |]; try (apply bind_ok in H as (els & H & E); injection E as <-; exists els; auto; fail).
  injection H as <-. exists []. auto.
Qed.

Lemma sent_named ds i l r es : Forall (named l) es -> find_place None l 0 ds = r -> match r with Some (Inside _) => False | _ => True end ->
  flat_map (sent ds i) es = match r with Some (Here j) => if Nat.eqb j i then es else [] | _ => [] end.
Proof.
  intros N F R. induction N as [|e es Ne N IH]; [destruct r as [[j|p]|]; [destruct (Nat.eqb j i)| |]; reflexivity|].
  destruct e as [s|sp l' a ks]; [contradiction|]. cbn in Ne. subst l'. cbn [flat_map sent]. rewrite F, IH.
  destruct r as [[j|p]|]; [destruct (Nat.eqb j i); reflexivity|contradiction|reflexivity].
Qed.
Lemma sent_inside_named ds p i l r es : Forall (named l) es -> find_place (Some p) l 0 ds = r -> match r with Some (Inside _) => False | _ => True end ->
  flat_map (sent_inside ds p i) es = match r with Some (Here j) => if Nat.eqb j i then es else [] | _ => [] end.
Proof.
  intros N F R. induction N as [|e es Ne N IH]; [destruct r as [[j|q]|]; [destruct (Nat.eqb j i)| |]; reflexivity|].
  destruct e as [s|sp l' a ks]; [contradiction|]. cbn in Ne. subst l'. cbn [flat_map sent_inside]. rewrite F, IH.
  destruct r as [[j|q]|]; [destruct (Nat.eqb j i); reflexivity|contradiction|reflexivity].
Qed.
Lemma is_place_eq p q : is_place p q = true -> p = q.
Proof.
  destruct p as [[i|a]|], q as [[j|b]|]; try discriminate; try reflexivity; cbn; intros H.
  - apply Nat.eqb_eq in H. congruence.
  - apply String.eqb_eq in H. congruence.
Qed.
Lemma segment ds k f v s i : pair_fact ds k f = true -> wt (f_ty f) v -> xsane (f_ty f) v -> many_at (f_ty f) v -> enc_field f (annotate v) = Ok s ->
  exists els, content f v = Ok els /\ flat_map (sent ds i) s = if (Nat.eqb k i && right_name f)%bool then els else [].
Proof.
  intros P W S E En. unfold pair_fact in P. apply andb_prop in P as (Ft & P).
  destruct (xml_info f) as [[[] ps n o]|] eqn:X.
  - exists []. unfold content, right_name. rewrite X. unfold enc_field in En. rewrite X in En. injection En as <-. rewrite Bool.andb_false_r. auto.
  - exists []. unfold content, right_name. rewrite X. unfold enc_field in En. rewrite X in En. injection En as <-. rewrite Bool.andb_false_r.
    split; [reflexivity|]. unfold text. destruct (String.eqb (nstr (annotate v)) ""); reflexivity.
  - destruct (field_content f v s En ps n o X) as (els & C & D). exists els. split; [exact C|].
    destruct (content_ok f v els ps n o Ft W S E X C) as (N & _). unfold right_name. rewrite X.
    destruct D as [->|(-> & ->)]; [|destruct (Nat.eqb k i && _)%bool; reflexivity].
    apply andb_prop in P as (P & _). apply andb_prop in P as (P & _). set (tg := if String.eqb (element_name (f_ty f) n) n then Some (Here k) else None) in P.
    assert (R : match tg with Some (Inside _) => False | _ => True end) by (unfold tg; destruct (String.eqb (element_name (f_ty f) n) n); exact I).
    assert (Fin : (match tg with Some (Here j) => if Nat.eqb j i then els else [] | _ => [] end) =
                  if (Nat.eqb k i && String.eqb (element_name (f_ty f) n) n)%bool then els else []).
    { unfold tg. destruct (String.eqb (element_name (f_ty f) n) n); [rewrite Bool.andb_true_r|rewrite Bool.andb_false_r]; reflexivity. }
    rewrite <- Fin. destruct ps as [|p [|? ?]]; [| |discriminate].
    + apply is_place_eq in P. apply (sent_named ds i _ _ _ N P R).
    + apply andb_prop in P as (P1 & P2). apply is_place_eq in P1, P2. cbn [wrap fold_right]. unfold elem. cbn [flat_map sent]. rewrite P1, app_nil_r.
      apply (sent_inside_named ds p i _ _ _ N P2 R).
  - exists []. unfold content, right_name. rewrite X. unfold enc_field in En. rewrite X in En. injection En as <-. rewrite Bool.andb_false_r. auto.
Qed.

Definition values_ok (es : list field) (vs : list val) : Prop :=
  zip_all (fun f v => wt (f_ty f) v) vs es /\ zip_all (fun f v => xsane (f_ty f) v) vs es /\ zip_all (fun f v => many_at (f_ty f) v) vs es.
Lemma values_cons f es v vs : values_ok (f :: es) (v :: vs) -> (wt (f_ty f) v /\ xsane (f_ty f) v /\ many_at (f_ty f) v) /\ values_ok es vs.
Proof. intros ((W & Ws) & (S & Ss) & (E & Es)). split; [split; [|split]|split; [|split]]; assumption. Qed.
Lemma values_length es : forall vs, values_ok es vs -> length vs = length es.
Proof.
  induction es as [|f es IH]; intros [|v vs] (W & S & E); try contradiction; [reflexivity|]. cbn. f_equal. apply IH.
  destruct W, S, E. split; [|split]; assumption.
Qed.
Lemma values_at es : forall vs j f v, values_ok es vs -> nth_error es j = Some f -> nth_error vs j = Some v ->
  wt (f_ty f) v /\ xsane (f_ty f) v /\ many_at (f_ty f) v.
Proof.
  induction es as [|f0 es IH]; intros [|v0 vs] j f v H E V; try (destruct j; discriminate).
  apply values_cons in H as (H & Hs). destruct j as [|j]; [injection E as <-; injection V as <-; exact H|eapply IH; eassumption].
Qed.

Lemma sents_none ds i : forall es m vs ks, pair_facts ds es m = true -> values_ok es vs -> enc_fields es (map annotate vs) = Ok ks ->
  ownerless is_element m es i -> flat_map (sent ds i) ks = [].
Proof.
  induction es as [|f es IH]; intros [|k m] [|v vs] ks F V E N; try discriminate; try (injection E as <-; reflexivity).
  cbn [pair_facts] in F. apply andb_prop in F as (F & Fs). apply andb_prop in F as (F & _). apply values_cons in V as ((W & Sa & Ev) & V).
  cbn [enc_fields map] in E. apply bind_ok in E as (a & A & E). apply bind_ok in E as (b & B & E). injection E as <-.
  rewrite flat_map_app. rewrite (IH m vs b Fs V B) by (intros j g; apply (N (S j))).
  destruct (segment ds k f v a i F W Sa Ev A) as (els & C & ->). rewrite app_nil_r.
  destruct (Nat.eqb_spec k i) as [->|]; [|reflexivity]. pose proof (N 0%nat f eq_refl eq_refl) as No. unfold right_name.
  unfold is_element in No. destruct (xml_info f) as [[[] ps n o]|]; try discriminate; reflexivity.
Qed.
Lemma sents_own ds i : forall es m vs ks f v, pair_facts ds es m = true -> values_ok es vs -> enc_fields es (map annotate vs) = Ok ks ->
  owner is_element m es vs i f v -> exists els, content f v = Ok els /\ flat_map (sent ds i) ks = if right_name f then els else [].
Proof.
  induction es as [|f0 es IH]; intros [|k m] [|v0 vs] ks f v F V E (j & M & Ej & Vj & P); try discriminate; try (destruct j; discriminate).
  cbn [pair_facts] in F. apply andb_prop in F as (F & Fs). apply andb_prop in F as (F & Nd). apply negb_true_iff in Nd.
  apply values_cons in V as ((W & Sa & Ev) & V).
  cbn [enc_fields map] in E. apply bind_ok in E as (a & A & E). apply bind_ok in E as (b & B & E). injection E as <-.
  rewrite flat_map_app. destruct (segment ds k f0 v0 a i F W Sa Ev A) as (els0 & C0 & ->). destruct j as [|j].
  - injection M as ->. injection Ej as ->. injection Vj as ->. exists els0. split; [exact C0|].
    rewrite (sents_none ds i es m vs b Fs V B), app_nil_r, Nat.eqb_refl; [reflexivity|]. intros j f' H. exfalso. exact (not_in_existsb _ _ Nd j H).
  - destruct (IH m vs b f v Fs V B) as (els & C & ->); [exists j; auto|]. exists els. split; [exact C|].
    destruct (Nat.eqb_spec k i) as [->|]; [|reflexivity]. exfalso. exact (not_in_existsb _ _ Nd j M).
Qed.

Lemma set_name_at fs sp l : forall cur i g c, nth_error fs i = Some g -> nth_error (set_name fs sp l cur) i = Some c -> String.eqb (f_name g) "XMLName" = false ->
  nth_error cur i = Some c.
Proof.
  induction fs as [|f fs IH]; intros [|x cur] [|i] g c G C N; try discriminate; cbn [set_name nth_error] in *.
  - injection G as <-. rewrite N in C. exact C.
  - eapply IH; eassumption.
Qed.
Lemma zeros_at fs : forall i g c, nth_error fs i = Some g -> nth_error (XmlModel.zeros fs) i = Some c -> c = zero_of (f_ty g).
Proof. induction fs as [|f fs IH]; intros [|i] g c G C; try discriminate; [injection G as <-; injection C as <-; reflexivity|eapply IH; eassumption]. Qed.
Lemma info_name g : xml_info g <> None -> String.eqb (f_name g) "XMLName" = false.
Proof. unfold xml_info. destruct (String.eqb (f_name g) "XMLName"); [congruence|reflexivity]. Qed.

(** The struct is read back. *)
Theorem pair_ok ds es m vs ks ks' sp l D : pair_facts ds es m = true -> values_ok es vs -> enc_fields es (map annotate vs) = Ok ks ->
  Forall2 seen (filter is_elem ks) (filter is_elem ks') -> (forall k, In k ks' -> (N.succ D + 2 * tall k <= limit)%N) -> name_fits ds l = true ->
  dec_struct ds sp l (enc_attrs es (map annotate vs)) (map waiting ks') D (XmlModel.zeros ds) =
  Ok (set_chardata ds (chardata (map waiting ks')) (spread moved m es (map back_of vs) (set_name ds sp l (XmlModel.zeros ds)))).
Proof.
  intros F V E Sn T Nm. set (cur := set_name ds sp l (XmlModel.zeros ds)).
  assert (Lc : length cur = length ds) by (unfold cur; rewrite set_name_length; unfold XmlModel.zeros; apply map_length).
  pose proof (pair_facts_length _ _ _ F) as Lm. pose proof (values_length _ _ V) as Lv.
  apply (dec_struct_core ds sp l _ ks ks' D (spread attribute m es (map back_of vs) cur)); auto; try (rewrite spread_length; exact Lc).
  intros i g c mi G C Mi. assert (Li : (i < length cur)%nat) by (apply nth_error_Some; unfold cur; rewrite C; discriminate).
  assert (Sub1 : ownerless moved m es i -> ownerless attribute m es i).
  { intros N j f H1 H2. specialize (N j f H1 H2). unfold moved in N. unfold attribute. destruct (xml_info f) as [[[] ps n o]|]; [discriminate| | |]; reflexivity. }
  assert (Sub2 : ownerless moved m es i -> ownerless is_element m es i).
  { intros N j f H1 H2. specialize (N j f H1 H2). unfold moved in N. unfold is_element. destruct (xml_info f) as [[[] ps n o]|]; try discriminate; reflexivity. }
  destruct (owner_dec moved m i es vs Lm) as [(f & v & O)|N]; [congruence| |].
  - pose proof (spread_own ds moved i m es vs cur f v F Li O) as Out. destruct O as (j & Mj & Ej & Vj & P).
    pose proof (pair_fact_at ds es m F j f i Ej Mj) as Pf. destruct (values_at es vs j f v V Ej Vj) as (W & S & Ev).
    unfold pair_fact in Pf. apply andb_prop in Pf as (Ft & Pf). unfold moved in P. destruct (xml_info f) as [[[] ps n o]|] eqn:X; try discriminate.
    + apply andb_prop in Pf as (Pf & On). apply andb_prop in Pf as (Pf & Ty). apply andb_prop in Pf as (Pf & Pe). apply andb_prop in Pf as (Si & Pm).
      pose proof (only_at_here _ _ _ _ On G) as Ag. apply (same_ty_at _ _ _ _ Ty) in G as Tg.
      assert (Xg : xml_info g <> None) by (unfold is_attr in Ag; destruct (xml_info g); [discriminate|discriminate Ag]).
      assert (Z : c = zero_of (f_ty f)).
      { rewrite <- Tg. eapply zeros_at; [exact G|]. eapply set_name_at; [exact G|exact C|apply info_name, Xg]. }
      assert (Own : owner attribute m es vs i f v) by (exists j; unfold attribute; rewrite X; auto).
      rewrite (spread_own ds attribute i m es vs cur f v F Li Own) in Mi. injection Mi as <-.
      split.
      * rewrite (attrs_own ds i g c G es m vs f v F Own), Z. rewrite (attr_back g f v n ps o Ft Si Pm Pe X Ag Tg W S).
        unfold back_field. rewrite X. reflexivity.
      * intros els' Sn' _. rewrite (sent_none ds i g) in Sn'.
        -- inversion Sn'; subst. eexists. split; [exact Out|]. reflexivity.
        -- exact G.
        -- unfold is_attr in Ag. unfold is_element. destruct (xml_info g) as [[[] ? ? ?]|]; [reflexivity|discriminate..].
    + apply andb_prop in Pf as (Pf & Eg). apply andb_prop in Pf as (_ & Ty). rewrite G in Eg. apply (same_ty_at _ _ _ _ Ty) in G as Tg.
      assert (Xg : xml_info g <> None) by (unfold is_element in Eg; destruct (xml_info g); [discriminate|discriminate Eg]).
      assert (Ng : attribute g = false) by (unfold is_element in Eg; unfold attribute; destruct (xml_info g) as [[[] ? ? ?]|]; [discriminate| | |]; reflexivity).
      assert (Z : c = zero_of (f_ty f)).
      { rewrite <- Tg. eapply zeros_at; [exact G|]. eapply set_name_at; [exact G|exact C|apply info_name, Xg]. }
      assert (Own : owner is_element m es vs i f v) by (exists j; unfold is_element; rewrite X; auto).
      rewrite spread_none in Mi.
      2:{ intros j' f' M' E'. destruct (Nat.eq_dec j' j) as [->|Nj].
          - rewrite Ej in E'. injection E' as <-. unfold attribute. rewrite X. reflexivity.
          - exfalso. clear - F Mj M' Nj. revert es F j j' Mj M' Nj. induction m as [|k m IH]; intros [|f0 es] F [|j] [|j'] Mj M' Nj; try discriminate; try congruence;
              cbn [pair_facts] in F; apply andb_prop in F as (F & Fs); apply andb_prop in F as (_ & Nd); apply negb_true_iff in Nd; cbn in Mj, M'.
            + injection Mj as ->. exact (not_in_existsb _ _ Nd _ M').
            + injection M' as ->. exact (not_in_existsb _ _ Nd _ Mj).
            + eapply (IH es Fs j j'); eauto. }
      unfold cur in Mi. rewrite C in Mi. injection Mi as <-. split; [apply attrs_element, Ng|].
      intros els' Sn' Tl. destruct (sents_own ds i es m vs ks f v F V E Own) as (els & Ct & Q). rewrite Q in Sn'.
      eexists. split; [exact Out|]. rewrite Tg, Z. unfold back_field. rewrite X. unfold right_name in Sn'. rewrite X in Sn'.
      destruct (String.eqb (element_name (f_ty f) n) n).
      * apply (content_ok f v els ps n o Ft W S Ev X Ct); assumption.
      * inversion Sn'; subst. reflexivity.
  - rewrite (spread_none attribute i m es vs cur (Sub1 N)) in Mi. unfold cur in Mi. rewrite C in Mi. injection Mi as <-.
    split; [apply (attrs_none ds i g c G es m vs F (Sub1 N))|].
    intros els' Sn' _. rewrite (sents_none ds i es m vs ks F V E (Sub2 N)) in Sn'. inversion Sn'; subst.
    exists c. split; [|reflexivity]. rewrite (spread_none moved i m es vs cur N). exact C.
Qed.
End Limits.
