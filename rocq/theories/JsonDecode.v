(** What decoding gives: values of the right type, from any document into any value. *)
From Verif Require Import Base Types Univ TypeTable Wt Reify ReifyBase Consts LinkModel Version ConvertModel ConvertSpec VersionProofs Numbers NumbersProofs Utf8 Utf8Proofs GobModel GobProofs JsonModel JsonBack JsonProofs JsonHooks JsonHookPatent JsonRound JsonSpec JsonLossless.
From Coq Require Import Lia.
Local Open Scope string_scope.

(** ** Induction on documents *)
Section JsonInduction.
  Variable P : json -> Prop.
  Hypothesis Pnull : P JNull.
  Hypothesis Pbool : forall b, P (JBool b).
  Hypothesis Pnum : forall s, P (JNum s).
  Hypothesis Pstr : forall s, P (JStr s).
  Hypothesis Parr : forall l, Forall P l -> P (JArr l).
  Hypothesis Pobj : forall ms, Forall (fun m => P (snd m)) ms -> P (JObj ms).
  Fixpoint json_induction (j : json) : P j :=
    match j with
    | JNull => Pnull
    | JBool b => Pbool b
    | JNum s => Pnum s
    | JStr s => Pstr s
    | JArr l => Parr l ((fix go l : Forall P l := match l with [] => Forall_nil _ | x :: l' => Forall_cons _ (json_induction x) (go l') end) l)
    | JObj ms => Pobj ms ((fix go ms : Forall (fun m => P (snd m)) ms :=
                             match ms with [] => Forall_nil _ | m :: ms' => Forall_cons _ (json_induction (snd m)) (go ms') end) ms)
    end.
End JsonInduction.

(** ** Numbers *)
Lemma atoi_int s z : atoi s = Ok z -> is_int z = true.
Proof.
  unfold atoi. destruct (match s with String "-" r => (true, r) | String "+" r => (false, r) | _ => (false, s) end) as [neg body].
  destruct body as [|a body]; [discriminate|]. destruct (digits_val (String a body) 0) as [z'|]; [|discriminate].
  cbv zeta. destruct (is_int (if neg then (- z')%Z else z')) eqn:E; [|discriminate]. intros [= <-]. exact E.
Qed.
Lemma size_nat_S m : (m <> 0)%N -> exists n, N.size_nat m = S n.
Proof. destruct m as [|p]; [congruence|]. intros _. destruct p; cbn; eauto. Qed.
Lemma strip_zeros_mod fuel : forall m e, (m <> 0)%N -> N.size_nat m <= fuel -> (fst (strip_zeros fuel m e) mod 10 <> 0)%N.
Proof.
  induction fuel as [|fuel IH]; intros m e N L.
  - destruct (size_nat_S m N) as (n & E). lia.
  - cbn [strip_zeros]. destruct (N.eqb_spec (m mod 10) 0) as [Z|Z]; [|exact Z].
    assert (D : (m = 10 * (m / 10))%N) by (apply N.div_exact; [discriminate|exact Z]).
    assert (Q : (m / 10 <> 0)%N) by (intros Q; rewrite Q in D; lia).
    apply IH; [exact Q|].
    pose proof (size_pow (m / 10) 1 Q) as S1.
    assert (G : forall a b, (a <> 0)%N -> (2 * a <= b)%N -> S (N.size_nat a) <= N.size_nat b).
    { clear. intros a b Na Lab.
      assert (H : forall x, (x <> 0)%N -> N.of_nat (N.size_nat x) = N.succ (N.log2 x)).
      { intros x Nx. assert (E : N.of_nat (N.size_nat x) = N.size x) by (destruct x as [|p]; [reflexivity|]; cbn; induction p; cbn; lia).
        rewrite E. apply N.size_log2, Nx. }
      assert (Nb : (b <> 0)%N) by lia. pose proof (H a Na) as Ha. pose proof (H b Nb) as Hb.
      assert (Lg : (N.succ (N.log2 a) <= N.log2 b)%N).
      { rewrite <- N.log2_double by lia. apply N.log2_le_mono. lia. }
      lia. }
    specialize (G (m / 10)%N m Q). assert (2 * (m / 10) <= m)%N by lia. specialize (G H). lia.
Qed.
Lemma parse_float_ok b s f : parse_float b s = Some f -> float_ok b f = true.
Proof.
  unfold parse_float. destruct (parse_decimal s) as [[[neg m] e]|]; [|discriminate].
  destruct (normalize m e) as [m' e'] eqn:N. destruct (overflows b m' e') eqn:O; [discriminate|]. intros [= <-].
  cbn [float_ok]. rewrite O, andb_true_r. unfold normalize in N. destruct (N.eqb_spec m 0) as [Z|Z].
  - injection N as <- <-. reflexivity.
  - pose proof (strip_zeros_mod (N.size_nat m) m e Z (le_n _)) as M. rewrite N in M. cbn [fst] in M.
    apply N.eqb_neq in M. rewrite M. apply orb_true_r.
Qed.

(** ** Values that decoding can give *)
Fixpoint fit (t : ty) (v : val) {struct v} : Prop :=
  match v with
  | VStr s => kind_of t = KStr /\ utf8 s
  | VInt z => kind_of t = KInt /\ match marshal_hook t with HSpecVersion => z = 0%Z \/ is_version z = true | _ => is_int z = true end
  | VBool _ => kind_of t = KBool
  | VFlt f => kind_of t = KFlt /\ float_ok (match t with TF32 => true | _ => false end) f = true
  | VPtr p => match kind_of t with
              | KPtr t' => match p with Some x => fit t' x | None => True end
              | _ => False
              end
  | VSlice s => match kind_of t with
                | KSlice t' => match s with Some l => list_all (fit t') l | None => True end
                | _ => False
                end
  | VStruct vs => match kind_of t with
                  | KStruct fs => zip_all (fun f x => fit (f_ty f) x) vs fs
                  | _ => False
                  end
  end.

Lemma zip_mono {A B} (P Q : A -> B -> Prop) : forall bs l, Forall (fun b => forall a, P a b -> Q a b) bs -> zip_all P bs l -> zip_all Q bs l.
Proof.
  induction bs as [|b bs IH]; intros [|a l] F W; cbn in *; try contradiction; [exact I|].
  apply Forall_cons_iff in F as (Fb & F). destruct W as (Wa & W). split; [apply Fb, Wa|apply IH; assumption].
Qed.
Lemma fit_wt v : forall t, fit t v -> wt t v.
Proof.
  induction v as [s|z|b|f| |x IH| |l IH|vs IH] using val_induction; intros t F; cbn [fit wt] in *; try (exact F); try (exact (proj1 F)).
  - destruct (kind_of t); try contradiction. apply IH, F.
  - destruct (kind_of t) as [| | | | |t'| |]; try contradiction. rewrite list_all_forall in *. rewrite Forall_forall in *. auto.
  - destruct (kind_of t) as [| | | | | |fs|]; try contradiction. revert F. apply (zip_mono (fun f x => fit (f_ty f) x) (fun f x => wt (f_ty f) x)).
    rewrite Forall_forall in *. auto.
Qed.

(** The struct types held by value are nested at most three deep. *)
Fixpoint flat (n : nat) (t : ty) : bool :=
  match kind_of t with
  | KStruct fs => match n with S n' => forallb (fun f => flat n' (f_ty f)) fs | O => false end
  | KBad => false
  | _ => true
  end.
Lemma defs_flat : forallb (fun d => flat 3 (TRef (fst d))) defs = true.
Proof. vm_compute. reflexivity. Qed.
Lemma zero_fit_n n : forall t, flat n t = true -> fit t (zero_n n t).
Proof.
  induction n as [|n IH]; intros t F; cbn [flat zero_n] in *; destruct (kind_of t) as [| | | |t'|t'|fs|] eqn:K; try discriminate F; cbn [fit]; rewrite ?K; auto.
  - split; [reflexivity|constructor].
  - split; [reflexivity|]. destruct (marshal_hook t); auto.
  - split; [reflexivity|constructor].
  - split; [reflexivity|]. destruct (marshal_hook t); auto.
  - clear K. induction fs as [|f fs IHf]; [exact I|]. cbn [forallb] in F. apply andb_prop in F as (F1 & F2). cbn. split; [apply IH, F1|apply IHf, F2].
Qed.
Lemma flat_mono n : forall t, flat n t = true -> flat (S n) t = true.
Proof.
  induction n as [|n IH]; intros t F; cbn [flat] in *; destruct (kind_of t) as [| | | |t'|t'|fs|]; try discriminate F; trivial.
  rewrite forallb_forall in *. intros f Hf. apply IH, F, Hf.
Qed.
Lemma fit_zero t : kind_of t <> KBad -> fit t (zero_of t).
Proof.
  intros K. apply zero_fit_n. destruct t; try reflexivity.
  destruct (assoc name defs) eqn:E; [|cbn [kind_of] in K; rewrite E in K; congruence].
  apply assoc_in in E. pose proof defs_flat as D. rewrite forallb_forall in D. apply flat_mono. exact (D _ E).
Qed.

(** ** Types whose parts are all in the table *)
Definition wk_alias (t : ty) : bool :=
  match t with
  | TPtr _ | TRef _ => false
  | TSlice (TRef m) => match assoc m defs with Some (DStruct _) => true | _ => false end
  | TSlice _ => false
  | _ => true
  end.
Fixpoint wk (t : ty) : bool :=
  match t with
  | TPtr t' | TSlice t' => wk t'
  | TRef n => match assoc n defs with Some (DStruct _) => true | Some (DAlias t') => wk_alias t' | None => false end
  | _ => true
  end.
Lemma defs_wk : forallb (fun d => match snd d with DStruct fs => forallb (fun f => wk (f_ty f)) fs | DAlias t => wk_alias t end) defs = true.
Proof. vm_compute. reflexivity. Qed.
Lemma wk_kind t : wk t = true -> kind_of t <> KBad.
Proof.
  destruct t; cbn [wk kind_of kind_base]; try discriminate. destruct (assoc name defs) as [[fs|t]|]; try discriminate.
  destruct t; cbn; discriminate.
Qed.
Lemma wk_ptr t t' : wk t = true -> kind_of t = KPtr t' -> wk t' = true.
Proof.
  destruct t; cbn [wk kind_of kind_base]; try discriminate; [intros W [= <-]; exact W|].
  destruct (assoc name defs) as [[fs|t]|]; try discriminate. destruct t; discriminate.
Qed.
Lemma wk_slice t t' : wk t = true -> kind_of t = KSlice t' -> wk t' = true.
Proof.
  destruct t; cbn [wk kind_of kind_base]; try discriminate; [intros W [= <-]; exact W|].
  destruct (assoc name defs) as [[fs|t]|]; try discriminate. destruct t; try discriminate. cbn [wk_alias kind_base]. intros W [= <-].
  destruct t; try discriminate. cbn [wk]. destruct (assoc name0 defs) as [[]|]; trivial; discriminate.
Qed.
Lemma wk_struct t fs : kind_of t = KStruct fs -> Forall (fun f => wk (f_ty f) = true) fs.
Proof.
  intros K. apply kind_struct_in in K as (n & _ & I). pose proof defs_wk as D. rewrite forallb_forall in D. specialize (D _ I). cbn in D.
  rewrite forallb_forall in D. rewrite Forall_forall. exact D.
Qed.

(** ** Decoders that give fit values *)
Definition keeps (d : decoder) : Prop := forall t cur v e, wk t = true -> fit t cur -> d t cur = DVal v e -> fit t v.
Definition shape_keeps (s : shape) : Prop :=
  match s with
  | SStr x => utf8 x
  | SArr ds => Forall keeps ds
  | SObj ms => Forall (fun m => keeps (m_dec (snd m))) ms
  | _ => True
  end.

Lemma zip_set {B} (P : field -> B -> Prop) : forall (vs : list B) fs i x f, zip_all P vs fs -> nth_error fs i = Some f -> P f x -> zip_all P (set_nth i x vs) fs.
Proof.
  induction vs as [|v vs IH]; intros [|g fs] i x f W N Px; cbn in W; try contradiction; [destruct i; exact I|].
  destruct W as (W1 & W2). destruct i as [|i]; cbn [set_nth nth_error] in *.
  - injection N as ->. cbn. auto.
  - cbn. split; [exact W1|eapply IH; eassumption].
Qed.
Lemma zip_nth {B} (P : field -> B -> Prop) : forall (vs : list B) fs i x f, zip_all P vs fs -> nth_error fs i = Some f -> nth_error vs i = Some x -> P f x.
Proof.
  induction vs as [|v vs IH]; intros [|g fs] i x f W N X; cbn in W; try contradiction; [destruct i; discriminate|].
  destruct W as (W1 & W2). destruct i as [|i]; cbn [nth_error] in *.
  - congruence.
  - eapply IH; eassumption.
Qed.

Definition fits (vs : list val) (fs : list field) : Prop := zip_all (fun f x => fit (f_ty f) x) vs fs.
Definition wks (fs : list field) : Prop := Forall (fun f => wk (f_ty f) = true) fs.

Lemma members_keep ms : Forall (fun m => keeps (m_dec (snd m))) ms -> forall fs cur vs e,
  wks fs -> fits cur fs -> dec_members ms fs cur = inl (vs, e) -> fits vs fs.
Proof.
  induction 1 as [|[k m] ms Km _ IH]; intros fs cur vs e Kf W E; cbn [dec_members] in E.
  - injection E as <- <-. exact W.
  - destruct (find_field fs k) as [i|]; [|eapply IH; eassumption].
    destruct (nth_error fs i) as [f|] eqn:Nf; [|eapply IH; eassumption].
    destruct (nth_error cur i) as [c|] eqn:Nc; [|eapply IH; eassumption].
    destruct (m_dec m (f_ty f) c) as [v err|e'] eqn:D; [|discriminate].
    destruct (dec_members ms fs (set_nth i v cur)) as [[vs' err']|e'] eqn:E'; [|discriminate]. injection E as <- <-.
    eapply IH; [exact Kf| |exact E'].
    eapply zip_set; [exact W|exact Nf|]. cbn [snd] in Km. eapply Km; [|eapply (zip_nth (fun f x => fit (f_ty f) x)); eassumption|exact D].
    unfold wks in Kf. rewrite Forall_forall in Kf. apply Kf. eapply nth_error_In, Nf.
Qed.
Lemma struct_keep s fs cur vs e : shape_keeps s -> wks fs -> fits cur fs -> dec_struct s fs cur = inl (vs, e) -> fits vs fs.
Proof.
  intros S K W E. destruct s; cbn [dec_struct] in E; try (injection E as <- <-; exact W).
  eapply members_keep; eassumption.
Qed.
Lemma elements_keep ds t : Forall keeps ds -> wk t = true -> forall cur l e, Forall (fit t) cur ->
  dec_elements ds t cur = inl (l, e) -> list_all (fit t) l.
Proof.
  intros K W. induction K as [|d ds Kd _ IH]; intros cur l e F E; cbn [dec_elements] in E.
  - injection E as <- <-. exact I.
  - destruct (d t (hd (zero_of t) cur)) as [v err|] eqn:D; [|discriminate].
    destruct (dec_elements ds t (tl cur)) as [[l' err']|] eqn:E'; [|discriminate]. injection E as <- <-. split.
    + eapply Kd; [exact W| |exact D]. destruct cur as [|c cur]; cbn [hd]; [apply fit_zero, wk_kind, W|]. inversion F; assumption.
    + eapply IH; [|exact E']. destruct cur; cbn [tl]; [constructor|]. inversion F; assumption.
Qed.

Lemma plain_keeps s : shape_keeps s -> forall t cur v e, wk t = true -> marshal_hook t <> HSpecVersion -> (forall t', t <> TPtr t') -> fit t cur -> plain s t cur = DVal v e -> fit t v.
Proof.
  intros S t cur v e W H NP F E. unfold plain in E. destruct (kind_of t) as [| | | |t'|t'|fs|] eqn:K.
  1-6,8: destruct s; try (injection E as <- <-; exact F); try (injection E as <- <-; cbn [fit]; rewrite K; auto; fail).
  - destruct (atoi lit) as [z|] eqn:A; injection E as <- <-; [|exact F]. split; [exact K|].
    apply atoi_int in A. destruct (marshal_hook t); trivial. contradiction.
  - destruct (parse_float (match t with TF32 => true | _ => false end) lit) as [f|] eqn:A; injection E as <- <-; [|exact F].
    split; [exact K|]. apply parse_float_ok in A. exact A.
  - destruct (dec_elements ds t' (list_of_slice cur)) as [[l err]|] eqn:D; [|discriminate]. injection E as <- <-.
    cbn [fit]. rewrite K. eapply elements_keep; [exact S|eapply wk_slice; eassumption| |exact D].
    destruct cur as [| | | | |[l0|]|]; try constructor. cbn [list_of_slice]. cbn [fit] in F. rewrite K in F. apply list_all_forall, F.
  - destruct (dec_struct s fs (fields_of_val cur)) as [[vs err]|] eqn:D; [|discriminate]. injection E as <- <-.
    cbn [fit]. rewrite K. eapply struct_keep; [exact S|eapply wk_struct, K| |exact D].
    destruct cur as [| | | | | |l]; cbn [fit] in F; rewrite K in F; try contradiction; try discriminate; try (destruct F as (F & _); discriminate F). exact F.
Qed.

(** ** The UnmarshalJSON methods *)
Lemma into_fit s t v : shape_keeps s -> wk t = true -> marshal_hook t <> HSpecVersion -> (forall t', t <> TPtr t') -> unmarshal_into s t = Ok v -> fit t v.
Proof.
  intros S W H NP E. unfold unmarshal_into, finish in E. destruct (plain s t (zero_of t)) as [v' [e|]|] eqn:P; try discriminate. injection E as <-.
  eapply plain_keeps; [exact S|exact W|exact H|exact NP|apply fit_zero, wk_kind, W|exact P].
Qed.
Lemma fit_ptr t v : fit t v -> fit (TPtr t) (some_ptr v).
Proof. trivial. Qed.
Lemma fit_nil t : fit (TPtr t) (VPtr None).
Proof. exact I. Qed.

Lemma raw_in ms : forall cur d, In (Some d) (dec_raw ms cur) -> In (Some d) cur \/ exists k m, In (k, m) ms /\ d = m_dec m /\ m_null m = false.
Proof.
  induction ms as [|[k m] ms IH]; intros cur d H; cbn [dec_raw] in H; [auto|].
  apply IH in H as [H|(k' & m' & H & Q)]; [|right; exists k', m'; split; [right; exact H|exact Q]].
  destruct (find_field raw_fields k) as [i|]; [|auto].
  assert (G : In (Some d) cur \/ Some d = (if m_null m then None else Some (m_dec m))).
  { clear -H. revert i H. induction cur as [|c cur IH]; intros [|i] H; cbn [set_nth] in H; try contradiction.
    - destruct H as [H|H]; [right; symmetry; exact H|left; right; exact H].
    - destruct H as [H|H]; [left; left; exact H|]. apply IH in H as [H|H]; [left; right; exact H|right; exact H]. }
  destruct G as [G|G]; [auto|]. right. exists k, m. split; [left; reflexivity|]. destruct (m_null m); [discriminate|]. injection G as ->. auto.
Qed.

Lemma finish_ok r v : finish r = Ok v -> r = DVal v None.
Proof. destruct r as [v' [e|]|]; cbn; try discriminate. intros [= <-]. reflexivity. Qed.

Ltac fields F := 
  repeat match type of F with
         | zip_all _ ?vs (_ :: _) => destruct vs as [|? ?]; [contradiction|]; let G := fresh "F" in destruct F as (G & F); cbn [f_ty] in G
         | zip_all _ ?vs [] => destruct vs as [|? ?]; [|contradiction]
         end.

Lemma unmarshal_keeps t h fs s cur v : hooked_type t h fs -> h <> HLicense -> shape_keeps s -> fits cur fs ->
  unmarshal h s t cur = Ok v -> fit t v.
Proof.
  intros T NL S F E.
  assert (IK : h = HIKEv2 -> forall f rest, fs = f :: rest -> f_ty f = TRef "BOMReference" -> fit t v).
  { intros -> f rest Q Qt. rewrite Q in F. destruct cur as [|r cur]; [contradiction|]. 
    pose proof (hooked_kind _ _ _ T) as K.
    assert (P : finish (plain s t (VStruct (r :: cur))) = Ok v -> fit t v).
    { intros P. apply finish_ok in P. eapply plain_keeps; [exact S|destruct T; reflexivity|destruct T; discriminate|destruct T; discriminate| |exact P].
      cbn [fit]. rewrite K, Q. exact F. }
    cbn [unmarshal] in E. destruct s; try (apply P, E; fail). injection E as <-. cbn [fit]. rewrite K, Q. destruct F as (_ & F).
    split; [rewrite Qt; split; [reflexivity|exact S]|exact F]. }
  destruct T; try contradiction; try (eapply IK; reflexivity); clear IK.
  - unfold fits, fields_EnvironmentVariableChoice in F. fields F. cbn [unmarshal] in E.
    destruct (plain s (TRef "Property") (zero_of (TRef "Property"))) as [p err|] eqn:P; [|discriminate].
    assert (Fp : fit (TRef "Property") p) by (eapply plain_keeps; [exact S|reflexivity|discriminate|discriminate| |exact P]; apply fit_zero; discriminate).
    assert (G : (if negb (zero_value p) then Ok (VStruct [some_ptr p; v1])
                 else match plain s TStr (VStr "") with
                      | DAbort e => Err e
                      | DVal v err' => match err' with None | Some (EType "object") => Ok (VStruct [v0; v]) | Some e => Err e end
                      end) = Ok v).
    { destruct err as [e|]; [|exact E]. destruct e; try discriminate E.
      repeat (match type of E with context [match ?x with _ => _ end] => destruct x end; try discriminate E; try exact E). }
    clear E. destruct (negb (zero_value p)).
    + injection G as <-. cbn [fit kind_of assoc]. exact (conj Fp (conj F1 I)).
    + destruct (plain s TStr (VStr "")) as [w err'|] eqn:Q; [|discriminate].
      assert (Fw : fit TStr w) by (eapply plain_keeps; [exact S|reflexivity|discriminate|discriminate| |exact Q]; split; [reflexivity|constructor]).
      assert (R : VStruct [v0; w] = v).
      { destruct err' as [e|]; [|congruence]. destruct e; try discriminate G.
        repeat (match type of G with context [match ?x with _ => _ end] => destruct x end; try discriminate G; try congruence). }
      subst v. exact (conj F0 (conj Fw I)).
  - unfold fits, fields_MLDatasetChoice in F. fields F. cbn [unmarshal] in E. apply bind_ok in E as (r & Er & E).
    apply into_fit in Er; [|exact S|reflexivity|discriminate|discriminate].
    destruct r as [| | | | | |[|[x| | | | | |] [|? ?]]]; try discriminate E. destruct Er as (Fx & _). cbn [f_ty] in Fx.
    destruct (negb (String.eqb x "")); [injection E as <-; exact (conj Fx (conj F1 I))|].
    apply bind_ok in E as (d & Ed & E). apply into_fit in Ed; [|exact S|reflexivity|discriminate|discriminate]. injection E as <-.
    destruct (zero_value d); [exact (conj F0 (conj F1 I))|exact (conj F0 (conj Ed I))].
  - cbn [unmarshal] in E. destruct (unmarshal_into s (TRef "toolsChoiceJSON")) as [r|e] eqn:Er.
    + apply into_fit in Er; [|exact S|reflexivity|discriminate|discriminate].
      destruct r as [| | | | | |[|a [|b [|c l]]]]; try discriminate E.
      destruct (nonnil a || nonnil b)%bool; injection E as <-; [|exact F].
      destruct Er as (Fa & Fb & _). exact (conj I (conj Fa (conj Fb I))).
    + assert (G : bind (unmarshal_into s (TSlice (TRef "Tool"))) (fun l => Ok (VStruct [some_ptr l; VPtr None; VPtr None])) = Ok v).
      { destruct e; try discriminate E. repeat (match type of E with context [match ?x with _ => _ end] => destruct x end; try discriminate E; try exact E). }
      apply bind_ok in G as (l & El & G). apply into_fit in El; [|exact S|reflexivity|discriminate|discriminate]. injection G as <-.
      exact (conj El (conj I (conj I I))).
  - unfold fits, fields_EvidenceIdentityChoice in F. fields F. cbn [unmarshal] in E.
    assert (G : bind (unmarshal_into s (TRef "EvidenceIdentity")) (fun x => Ok (VStruct [some_ptr x; v1])) = Ok v -> fit (TRef "EvidenceIdentityChoice") v).
    { intros G. apply bind_ok in G as (l & El & G). apply into_fit in El; [|exact S|reflexivity|discriminate|discriminate]. injection G as <-.
      exact (conj El (conj F1 I)). }
    destruct s; try (apply G, E; fail). apply bind_ok in E as (l & El & E). apply into_fit in El; [|exact S|reflexivity|discriminate|discriminate]. injection E as <-.
    exact (conj F0 (conj El I)).
  - unfold fits, fields_CertificateState in F. fields F. cbn [unmarshal] in E. apply bind_ok in E as (x & _ & E).
    destruct (negb (String.eqb x "")); apply bind_ok in E as (d & Ed & E); (apply into_fit in Ed; [|exact S|reflexivity|discriminate|discriminate]); injection E as <-;
      [exact (conj Ed (conj F1 I))|exact (conj F0 (conj Ed I))].
  - unfold fits, fields_CertificateExtension in F. fields F. cbn [unmarshal] in E. apply bind_ok in E as (x & _ & E).
    destruct (negb (String.eqb x "")); apply bind_ok in E as (d & Ed & E); (apply into_fit in Ed; [|exact S|reflexivity|discriminate|discriminate]); injection E as <-;
      [exact (conj Ed (conj F1 I))|exact (conj F0 (conj Ed I))].
  - unfold fits, fields_AsserterChoice in F. fields F. cbn [unmarshal] in E. destruct s as [|b|lit|x|ds|ms]; try discriminate E.
    + injection E as <-. exact (conj F0 (conj F1 (conj F2 I))).
    + assert (R : forall d, In (Some d) (dec_raw ms [None; None; None]) -> keeps d).
      { intros d Hd. apply raw_in in Hd as [[|[|[|[]]]]|(k & m & Hm & -> & _)]; try discriminate. cbn [shape_keeps] in S. rewrite Forall_forall in S. exact (S _ Hm). }
      destruct (dec_raw ms [None; None; None]) as [|a [|b [|c [|? ?]]]]; try (destruct a; try destruct b; try destruct c); try discriminate E;
        try (injection E as <-; exact (conj F0 (conj F1 (conj F2 I))));
        apply bind_ok in E as (w & Ew & E); apply finish_ok in Ew; injection E as <-.
      all: match type of Ew with ?d _ _ = _ => assert (Kd : keeps d) by (apply R; cbn; auto) end.
      all: eapply Kd in Ew; [|reflexivity|first [apply fit_zero; discriminate|split; [reflexivity|constructor]]].
      all: first [exact (conj Ew (conj F1 (conj F2 I)))|exact (conj F0 (conj Ew (conj F2 I)))|exact (conj F0 (conj F1 (conj Ew I)))].
  - unfold fits, fields_PatentChoice in F. fields F. cbn [unmarshal] in E. apply bind_ok in E as (x & _ & E).
    destruct (negb (String.eqb x "")); apply bind_ok in E as (d & Ed & E); (apply into_fit in Ed; [|exact S|reflexivity|discriminate|discriminate]); injection E as <-;
      [exact (conj F0 (conj Ed I))|exact (conj Ed (conj F1 I))].
Qed.

Lemma parse_version_fit x z : parse_spec_version x = Some z -> is_version z = true.
Proof. intros H. apply parse_spec_version_spec in H. apply H. Qed.

Lemma node_keeps s : shape_keeps s -> keeps (node s).
Proof.
  intros S t. induction t; intros cur v e W F E.
  1-5: rewrite node_plain in E; [|discriminate|reflexivity]; eapply plain_keeps; [exact S|exact W|discriminate|discriminate|exact F|exact E].
  - cbn [node] in E. cbn [wk] in W.
    assert (G : match node s t (match cur with VPtr (Some x) => x | _ => zero_of t end) with DVal v err => DVal (some_ptr v) err | DAbort e => DAbort e end = DVal v e -> fit (TPtr t) v).
    { intros G. destruct (node s t _) as [v' err|] eqn:N; [|discriminate]. injection G as <- <-.
      eapply (IHt _ _ _ W); [|exact N]. destruct cur as [| | | |[x|]| |]; try (apply fit_zero, wk_kind, W). exact F. }
    destruct s; try (apply G, E; fail). injection E as <- <-. exact I.
  - rewrite node_plain in E; [|discriminate|reflexivity]; eapply plain_keeps; [exact S|exact W|discriminate|discriminate|exact F|exact E].
  - destruct (hook_cases (TRef name)) as [H|[[= ->]|(h & fs & H)]].
    + rewrite node_plain in E; [|discriminate|apply unhooked, H]. eapply plain_keeps; [exact S|exact W|rewrite H; discriminate|discriminate|exact F|exact E].
    + change (node s (TRef "SpecVersion") cur) with
        (match finish (plain s TStr (VStr "")) with
          | Ok (VStr x) => match parse_spec_version x with Some z => DVal (VInt z) None | None => DAbort EInvalidSpecVersion end
          | Ok _ => DAbort ESyntax
          | Err e => DAbort e
          end) in E.
      destruct (finish (plain s TStr (VStr ""))) as [[x| | | | | |]|]; try discriminate E.
      destruct (parse_spec_version x) as [z|] eqn:P; [|discriminate]. injection E as <- <-. split; [reflexivity|]. right. eapply parse_version_fit, P.
    + assert (D : h = HLicense \/ h <> HLicense) by (destruct h; auto; right; discriminate). destruct D as [->|D].
      * rewrite node_plain in E; [|discriminate|unfold unmarshal_hook; rewrite (hooked_marshal _ _ _ H); reflexivity].
        eapply plain_keeps; [exact S|exact W|rewrite (hooked_marshal _ _ _ H); discriminate|discriminate|exact F|exact E].
      * rewrite (hooked_node _ _ _ _ _ H D) in E. destruct (unmarshal h s (TRef name) (fields_of_val cur)) as [v'|] eqn:U; [|discriminate].
        injection E as <- <-. eapply unmarshal_keeps; [exact H|exact D|exact S| |exact U].
        pose proof (hooked_kind _ _ _ H) as K. destruct cur as [| | | | | |l]; cbn [fit] in F; rewrite K in F; try contradiction; try discriminate; try (destruct F as (F & _); discriminate F). exact F.
Qed.

Lemma jdec_keeps j : doc_utf8 j -> keeps (jdec j).
Proof.
  induction j as [| | | |l IH|ms IH] using json_induction; intros U; rewrite jdec_eq; apply node_keeps; cbn [shape_of shape_keeps]; trivial.
  - cbn [doc_utf8] in U. rewrite list_all_forall in U. rewrite Forall_map. rewrite Forall_forall in *. auto.
  - cbn [doc_utf8] in U. rewrite list_all_forall in U. rewrite Forall_map. rewrite Forall_forall in *. cbn [snd m_dec]. auto.
Qed.

(** Without the condition on strings, values are still of the right type. *)

(** ** Objects with distinct keys *)
Definition names_ok (fs : list field) : Prop := forall i j f g n o m p, nth_error fs i = Some f -> nth_error fs j = Some g ->
  json_info f = Some (n, o) -> json_info g = Some (m, p) -> fold_name n = fold_name m -> i = j.

Lemma find_index_some {A} (p : A -> bool) l i : find_index p l = Some i -> exists x, nth_error l i = Some x /\ p x = true.
Proof.
  revert i. induction l as [|x l IH]; intros i H; cbn [find_index] in H; [discriminate|].
  destruct (p x) eqn:P; [injection H as <-; exists x; auto|].
  destruct (find_index p l) as [j|]; [|discriminate]. injection H as <-. apply IH. reflexivity.
Qed.
Lemma find_index_none {A} (p : A -> bool) l : find_index p l = None -> forall x, In x l -> p x = false.
Proof.
  induction l as [|y l IH]; intros H x I; [contradiction|]. cbn [find_index] in H.
  destruct (p y) eqn:P; [discriminate|]. destruct (find_index p l); [discriminate|]. destruct I as [->|I]; [exact P|auto].
Qed.
Lemma find_field_sound fs k i : find_field fs k = Some i -> exists f n om, nth_error fs i = Some f /\ json_info f = Some (n, om) /\ fold_name n = fold_name k.
Proof.
  unfold find_field. intros H.
  destruct (find_index _ fs) as [i'|] eqn:E in H.
  - injection H as ->. apply find_index_some in E as (f & N & P). destruct (json_info f) as [[n om]|] eqn:J; [|discriminate].
    apply String.eqb_eq in P. subst. exists f, n, om. auto.
  - apply find_index_some in H as (f & N & P). destruct (json_info f) as [[n om]|] eqn:J; [|discriminate].
    apply String.eqb_eq in P. exists f, n, om. auto.
Qed.
Lemma find_field_complete fs k i f n om : names_ok fs -> nth_error fs i = Some f -> json_info f = Some (n, om) -> fold_name n = fold_name k ->
  find_field fs k = Some i.
Proof.
  intros NO N J Q. destruct (find_field fs k) as [i'|] eqn:E.
  - apply find_field_sound in E as (g & m & p & N' & J' & Q'). f_equal. eapply NO; [exact N'|exact N|exact J'|exact J|congruence].
  - exfalso. unfold find_field in E. destruct (find_index (fun f => match json_info f with Some (n, _) => String.eqb k n | None => false end) fs); [discriminate|].
    apply find_index_none with (x := f) in E; [|eapply nth_error_In, N]. rewrite J, Q, String.eqb_refl in E. discriminate.
Qed.

(** The table has distinct names. *)
Fixpoint distinct (l : list string) : bool := match l with [] => true | x :: l' => negb (existsb (String.eqb x) l') && distinct l' end.
Definition names (fs : list field) : list string := flat_map (fun f => match json_info f with Some (n, _) => [fold_name n] | None => [] end) fs.
Lemma distinct_ok fs : distinct (names fs) = true -> names_ok fs.
Proof.
  induction fs as [|f0 fs IH]; intros D i j f g n o m p Ni Nj Jf Jg Q.
  - destruct i; discriminate.
  - assert (In' : forall k h x y, nth_error fs k = Some h -> json_info h = Some (x, y) -> In (fold_name x) (names fs)).
    { intros k h x y Nk Jh. unfold names. apply in_flat_map. exists h. split; [eapply nth_error_In, Nk|]. rewrite Jh. left. reflexivity. }
    assert (D' : distinct (names fs) = true).
    { unfold names in D. cbn [flat_map] in D. destruct (json_info f0) as [[]|]; [|exact D]. cbn [app distinct] in D. apply andb_prop in D. apply D. }
    assert (D0 : forall x y, json_info f0 = Some (x, y) -> ~ In (fold_name x) (names fs)).
    { intros x y J0 I0. unfold names in D. cbn [flat_map] in D. rewrite J0 in D. cbn [app distinct] in D. apply andb_prop in D as (D & _).
      apply negb_true_iff in D. assert (X : existsb (String.eqb (fold_name x)) (names fs) = true).
      { apply existsb_exists. exists (fold_name x). split; [exact I0|apply String.eqb_refl]. }
      unfold names in X. rewrite X in D. discriminate. }
    destruct i as [|i], j as [|j]; cbn [nth_error] in Ni, Nj; trivial.
    + injection Ni as ->. exfalso. apply (D0 n o Jf). rewrite Q. eapply In'; eassumption.
    + injection Nj as ->. exfalso. apply (D0 m p Jg). rewrite <- Q. eapply In'; eassumption.
    + f_equal. eapply (IH D'); eassumption.
Qed.
Lemma defs_distinct : forallb (fun d => match snd d with DStruct fs => distinct (names fs) | DAlias _ => true end) defs = true.
Proof. vm_compute. reflexivity. Qed.
Lemma struct_names t fs : kind_of t = KStruct fs -> names_ok fs.
Proof.
  intros K. apply kind_struct_in in K as (n & _ & I). pose proof defs_distinct as D. rewrite forallb_forall in D. specialize (D _ I). cbn in D.
  apply distinct_ok, D.
Qed.

(** What a field of the result is. *)
Definition comes_from (ms : list (string * member)) (f : field) (v : val) : Prop :=
  exists n om k m, json_info f = Some (n, om) /\ In (k, m) ms /\ fold_name k = fold_name n /\ m_dec m (f_ty f) (zero_of (f_ty f)) = DVal v None.
Definition untouched (ms : list (string * member)) (f : field) : Prop :=
  forall n om k m, json_info f = Some (n, om) -> In (k, m) ms -> fold_name k <> fold_name n.

Lemma nth_set_same {A} i (x : A) l : i < length l -> nth_error (set_nth i x l) i = Some x.
Proof. revert i. induction l as [|y l IH]; intros [|i] L; cbn in *; try lia; [reflexivity|]. apply IH. lia. Qed.
Lemma set_nth_length {A} i (x : A) l : length (set_nth i x l) = length l.
Proof. revert i. induction l as [|y l IH]; intros [|i]; cbn; congruence. Qed.

Lemma dec_unique fs : names_ok fs -> forall ms cur vs,
  NoDup (map (fun m => fold_name (fst m)) ms) -> length cur = length fs ->
  (forall i f n om, nth_error fs i = Some f -> json_info f = Some (n, om) -> In (fold_name n) (map (fun m => fold_name (fst m)) ms) ->
     nth_error cur i = Some (zero_of (f_ty f))) ->
  dec_members ms fs cur = inl (vs, None) ->
  length vs = length fs /\
  forall i f, nth_error fs i = Some f ->
    (untouched ms f /\ nth_error vs i = nth_error cur i) \/ (exists v, nth_error vs i = Some v /\ comes_from ms f v).
Proof.
  intros NO. induction ms as [|[k m] ms IH]; intros cur vs ND L Z E; cbn [dec_members] in E.
  - injection E as <-. split; [exact L|]. intros i f N. left. split; [intros n om k m _ []|reflexivity].
  - cbn [map fst] in ND. inversion ND as [|? ? NI ND']; subst.
    assert (Z' : forall i f n om, nth_error fs i = Some f -> json_info f = Some (n, om) -> In (fold_name n) (map (fun m => fold_name (fst m)) ms) -> nth_error cur i = Some (zero_of (f_ty f))).
    { intros i f n om N J I. eapply Z; [exact N|exact J|right; exact I]. }
    assert (Skip : forall i f, nth_error fs i = Some f -> find_field fs k <> Some i ->
              (untouched ms f /\ nth_error vs i = nth_error cur i) \/ (exists v, nth_error vs i = Some v /\ comes_from ms f v) ->
              (untouched ((k, m) :: ms) f /\ nth_error vs i = nth_error cur i) \/ (exists v, nth_error vs i = Some v /\ comes_from ((k, m) :: ms) f v)).
    { intros i f N NF [(U & Q)|(v & Q & n & om & k' & m' & J & I & R)].
      - left. split; [|exact Q]. intros n om k' m' J [[= <- <-]|I]; [|eapply U; eassumption].
        intros X. apply NF. eapply find_field_complete; [exact NO|exact N|exact J|symmetry; exact X].
      - right. exists v. split; [exact Q|]. exists n, om, k', m'. split; [exact J|]. split; [right; exact I|exact R]. }
    destruct (find_field fs k) as [i0|] eqn:FF.
    + destruct (find_field_sound _ _ _ FF) as (f0 & n0 & om0 & N0 & J0 & Q0). rewrite N0 in E.
      assert (C0 : nth_error cur i0 = Some (zero_of (f_ty f0))).
      { eapply Z; [exact N0|exact J0|left; symmetry; exact Q0]. }
      rewrite C0 in E. destruct (m_dec m (f_ty f0) (zero_of (f_ty f0))) as [v0 err|] eqn:D0; [|discriminate].
      destruct (dec_members ms fs (set_nth i0 v0 cur)) as [[vs' err']|] eqn:E'; [|discriminate].
      destruct err as [e|]; [discriminate|]. injection E as <- ->.
      specialize (IH (set_nth i0 v0 cur) vs' ND'). rewrite set_nth_length in IH. specialize (IH L).
      assert (Lt : i0 < length cur) by (rewrite L; apply nth_error_Some; congruence).
      destruct IH as (L' & IH); [|exact E'|].
      { intros i f n om N J I. assert (i <> i0). { intros ->. rewrite N0 in N. injection N as <-. rewrite J0 in J. injection J as <- _. apply NI. rewrite Q0 in I. exact I. }
        rewrite nth_set_other by assumption. eapply Z'; eassumption. }
      split; [exact L'|]. intros i f N. destruct (Nat.eq_dec i i0) as [->|NE].
      * rewrite N0 in N. injection N as <-. right. destruct (IH i0 f0 N0) as [(U & Q)|(v & Q & n & om & k' & m' & J & I & R & _)].
        -- exists v0. split; [rewrite Q; apply nth_set_same, Lt|]. exists n0, om0, k, m. split; [exact J0|]. split; [left; reflexivity|]. auto.
        -- exfalso. apply NI. rewrite J0 in J. injection J as <- _. rewrite <- Q0, <- R. apply in_map_iff. exists (k', m'). auto.
      * apply Skip; [exact N|congruence|]. destruct (IH i f N) as [(U & Q)|X]; [left|right; exact X]. rewrite nth_set_other in Q by exact NE. auto.
    + destruct (IH cur vs ND' L Z' E) as (L' & IH'). split; [exact L'|]. intros i f N. apply Skip; [exact N|discriminate|apply IH', N].
Qed.
