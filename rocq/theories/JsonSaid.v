(** What is written after decoding was in the document: for C44. *)
From Verif Require Import Base Types Univ TypeTable Wt ReifyBase Reify ReifyFacts Consts LinkModel Version ConvertSpec Numbers NumbersProofs Utf8 Utf8Proofs GobModel JsonModel JsonSpec JsonBack JsonProofs JsonRound JsonDecode GobProofs VersionProofs JsonBom JsonTyped SchemaSpec SchemaProofs SchemaKeep SaidSpec.
From Coq Require Import Lia.
Local Open Scope string_scope.

(** ** Types in which there is no version. (Only BOM has one; it is treated at the end.) *)
Fixpoint okty (t : ty) : bool :=
  match t with TPtr t' | TSlice t' => okty t' | TRef n => (negb (String.eqb n "BOM") && negb (String.eqb n "SpecVersion"))%bool | _ => true end.
Lemma defs_unversioned : forallb (fun d => String.eqb (fst d) "BOM" || match snd d with DStruct fs => forallb (fun f => okty (f_ty f)) fs | DAlias t => okty t end)%bool defs = true.
Proof. vm_compute. reflexivity. Qed.
Lemma struct_okty t fs : okty t = true -> kind_of t = KStruct fs -> Forall (fun f => okty (f_ty f) = true) fs.
Proof.
  intros O K. apply kind_struct_in in K as (n & -> & I). pose proof defs_unversioned as D. rewrite forallb_forall in D. specialize (D _ I). cbn [fst snd] in D. cbn [okty] in O. apply andb_prop in O as (O & _).
  destruct (String.eqb n "BOM"); [discriminate|]. cbn [orb] in D. apply Forall_forall. rewrite forallb_forall in D. exact D.
Qed.
Lemma fields_okty t : okty t = true -> Forall (fun f => okty (f_ty f) = true) (fields_of t).
Proof. intros O. unfold fields_of. destruct (kind_of t) eqn:K; try constructor. exact (struct_okty _ _ O K). Qed.
Lemma slice_okty t t' : okty t = true -> kind_of t = KSlice t' -> okty t' = true.
Proof.
  intros O K. destruct t; try discriminate K; [cbn in K; injection K as <-; exact O|]. cbn [kind_of] in K. destruct (assoc name defs) as [[fs|a]|] eqn:A; try discriminate.
  pose proof defs_unversioned as D. rewrite forallb_forall in D. apply GobProofs.assoc_in in A. specialize (D _ A). cbn [fst snd] in D. cbn [okty] in O. apply andb_prop in O as (O & _). destruct (String.eqb name "BOM"); [discriminate|].
  cbn [orb] in D. destruct a; try discriminate K. cbn in K. injection K as <-. exact D.
Qed.
Lemma base_okty t : okty t = true -> okty (base t) = true.
Proof. induction t; cbn [okty base]; auto. Qed.
Lemma no_version t : okty t = true -> marshal_hook t <> HSpecVersion.
Proof. intros O H. destruct (hook_cases t) as [N|[->|(h & fs & T)]]; [congruence|discriminate|]. rewrite (hooked_marshal _ _ _ T) in H. subst h. inversion T. Qed.

(** ** Zero values say nothing *)
Fixpoint bare (v : val) : bool :=
  match v with
  | VFlt f => match f with FFin _ 0%N 0%Z => true | _ => false end
  | VStruct vs => forallb bare vs
  | _ => zero_value v
  end.
Lemma bare_zero v : bare v = true -> zero_value v = true.
Proof.
  induction v as [s|z|b|f| |x IH| |l IH|vs IH] using val_induction; try exact (fun H => H).
  - cbn. destruct f as [neg [|m] [|e|e]| |]; try discriminate; reflexivity.
  - cbn [bare zero_value]. intros Z. rewrite forallb_forall in *. rewrite Forall_forall in IH. auto.
Qed.
Lemma bare_n n : forall t, bare (zero_n n t) = true.
Proof.
  induction n as [|n IH]; intros t; cbn [zero_n]; destruct (kind_of t); try reflexivity. cbn [bare]. rewrite forallb_forall. intros v Hv. apply in_map_iff in Hv as (f & <- & _). apply IH.
Qed.
Lemma bare_of t : bare (zero_of t) = true. Proof. apply bare_n. Qed.
Lemma zero_nil v : zero_value v = true -> nonnil v = false.
Proof. destruct v as [| | | |[]| |]; intros; try reflexivity; discriminate. Qed.
Lemma zero_empty v : zero_value v = true -> nonempty v = false.
Proof. unfold nonempty. destruct v; intros Z; try reflexivity. cbn in Z |- *. rewrite Z. reflexivity. Qed.
Lemma marshal_zero h fs vs es o : (forall v, In v vs -> nonnil v = false /\ nonempty v = false) -> (forall v, In v vs -> match v with VPtr (Some p) => negb (zero_value p) | _ => false end = false) ->
  marshal h fs vs es = Ok o -> o = OObj [] \/ o = ONull \/ enc_struct true fs vs es = Ok o.
Proof.
  intros Z Zp E. destruct vs as [|a [|b [|c vs]]]; cbn [In] in Z, Zp.
  - destruct h; cbn in E; discriminate E.
  - destruct (Z a) as (Na & Ea); [auto|]. destruct h, es as [|ea [|eb [|ec [|]]]]; cbn [marshal] in E; try discriminate E; rewrite ?Na, ?Ea in E; cbn [negb andb orb] in E; try discriminate E; auto.
  - destruct (Z a) as (Na & Ea); [auto|]. destruct (Z b) as (Nb & Eb); [auto|]. pose proof (Zp a (or_introl eq_refl)) as Za. destruct h, es as [|ea [|eb [|ec [|]]]]; cbn [marshal] in E; try discriminate E; rewrite ?Na, ?Ea, ?Nb, ?Eb, ?Za in E; cbn [negb andb orb] in E; try discriminate E; try (injection E as <-); auto.
  - destruct (Z a) as (Na & Ea); [auto|]. destruct (Z b) as (Nb & Eb); [auto|]. destruct (Z c) as (Nc & Ec); [auto|].
    destruct h, vs, es as [|ea [|eb [|ec [|]]]]; cbn [marshal] in E; try discriminate E; rewrite ?Na, ?Ea, ?Nb, ?Eb, ?Nc, ?Ec in E; cbn [negb andb orb] in E; try discriminate E; try (injection E as <-); auto.
Qed.
Lemma members_silent fs : forall vs esc ms, Forall (fun v => forall t esc o, okty t = true -> bare v = true -> jenc esc t v = Ok o -> silent (erase o)) vs -> Forall (fun f => okty (f_ty f) = true) fs ->
  forallb bare vs = true -> enc_members esc fs vs (encs vs fs) = Ok ms -> forall k o, In (k, o) ms -> silent (erase o).
Proof.
  induction fs as [|f fs IH]; intros vs esc ms P O Z E k o Ho; [destruct vs; injection E as <-; contradiction|]. destruct vs as [|v vs]; [injection E as <-; contradiction|].
  inversion P as [|? ? Pv P']; subst. inversion O as [|? ? Of O']; subst. cbn [forallb] in Z. apply andb_prop in Z as (Zv & Z). cbn [encs enc_members] in E.
  destruct (json_info f) as [[n om]|]; [|exact (IH _ _ _ P' O' Z E k o Ho)]. destruct (om && empty_value v)%bool; [exact (IH _ _ _ P' O' Z E k o Ho)|].
  apply bind_ok in E as (o1 & E1 & E). apply bind_ok in E as (ms' & E2 & E). injection E as <-. destruct Ho as [[= <- <-]|Ho]; [exact (Pv _ _ _ Of Zv E1)|exact (IH _ _ _ P' O' Z E2 k o Ho)].
Qed.
Lemma zero_silent v : forall t esc o, okty t = true -> bare v = true -> jenc esc t v = Ok o -> silent (erase o).
Proof.
  induction v as [s|z|b|f| |x IH| |l IH|vs IH] using val_induction; intros t esc o O Z E.
  - cbn in Z, E. apply String.eqb_eq in Z. subst s. injection E as <-. cbn [erase]. rewrite to_utf8_valid by constructor. constructor.
  - cbn in Z. apply Z.eqb_eq in Z. subst z. cbn [jenc] in E. pose proof (no_version t O) as N. destruct (marshal_hook t); try contradiction; injection E as <-; cbn [erase]; eapply (si_num false); vm_compute; reflexivity.
  - cbn in Z. destruct b; [discriminate|]. injection E as <-. constructor.
  - cbn [bare] in Z. destruct f as [neg [|m] [|e|e]| |]; try discriminate Z. cbn [jenc] in E. injection E as <-. cbn [erase]. destruct neg; eapply (si_num false); vm_compute; reflexivity.
  - injection E as <-. constructor.
  - discriminate.
  - injection E as <-. constructor.
  - discriminate.
  - cbn [bare] in Z. rewrite jenc_struct in E. assert (S : forall esc o, enc_struct esc (fields_of t) vs (encs vs (fields_of t)) = Ok o -> silent (erase o)).
    { intros esc' o' E'. unfold enc_struct in E'. apply bind_ok in E' as (ms & E' & Eo). injection Eo as <-. cbn [erase]. apply si_obj. intros k j Hj. apply in_map_iff in Hj as ((k' & o2) & [= <- <-] & Ho).
      exact (members_silent _ vs esc' ms IH (fields_okty t O) Z E' k' o2 Ho). }
    assert (ZZ : forall v, In v vs -> nonnil v = false /\ nonempty v = false) by (intros v Hv; rewrite forallb_forall in Z; split; [apply zero_nil|apply zero_empty]; apply bare_zero, Z, Hv).
    assert (Zp : forall v, In v vs -> match v with VPtr (Some p) => negb (zero_value p) | _ => false end = false) by (intros v Hv; rewrite forallb_forall in Z; specialize (Z v Hv); destruct v as [| | | |[]| |]; try reflexivity; discriminate Z).
    destruct (marshal_hook t) eqn:H; [exact (S esc o E)| | | | | | | | | | |]; apply scanned_ok in E; rewrite <- H in E;
      (destruct (marshal_zero _ _ _ _ _ ZZ Zp E) as [->|[->|E']]; [apply si_obj; contradiction|constructor|exact (S true o E')]).
Qed.

(** ** What is decoded from a document and written again *)
Definition told_at (j : json) (t : ty) : Prop := forall v, jdec j t (zero_of t) = DVal v None -> forall esc o, jenc esc t v = Ok o -> said (erase o) j.
Definition told (j : json) : Prop := forall t, okty t = true -> wk t = true -> doc_utf8 j -> doc_unique j -> told_at j t.
Lemma told_peel j t : is_null j = false -> told_at j (base t) -> told_at j t.
Proof.
  intros N. induction t; intros D; try exact D. cbn [base] in D. specialize (IHt D). intros v E. rewrite jdec_eq in E. cbn [node] in E.
  change (match zero_of (TPtr t) with VPtr (Some x) => x | _ => zero_of t end) with (zero_of t) in E. rewrite <- jdec_eq in E.
  assert (E' : exists x, jdec j t (zero_of t) = DVal x None /\ v = some_ptr x).
  { destruct (jdec j t (zero_of t)) as [x [e|]|e]; destruct j; try discriminate N; try discriminate E; injection E as <-; eexists; split; reflexivity. }
  destruct E' as (x & Ex & ->). intros esc o Eo. exact (IHt x Ex esc o Eo).
Qed.
Lemma told_base j : is_null j = false -> (forall t, base t = t -> okty t = true -> wk t = true -> doc_utf8 j -> doc_unique j -> told_at j t) -> told j.
Proof. intros N H t O W U Q. apply told_peel; [exact N|]. apply H; [apply base_base|apply base_okty, O|apply base_wk, W|exact U|exact Q]. Qed.
Lemma plain_told j t : base t = t -> unmarshal_hook t = HNone -> (forall v, plain (shape_of j) t (zero_of t) = DVal v None -> forall esc o, jenc esc t v = Ok o -> said (erase o) j) -> told_at j t.
Proof. intros B H P v E. rewrite jdec_eq, node_plain in E; [exact (P v E)|rewrite <- B; apply base_no_ptr|exact H]. Qed.
Lemma hook_told j t : base t = t -> okty t = true -> unmarshal_hook t <> HNone -> exists h fs, hooked_type t h fs /\ h <> HLicense /\ unmarshal_hook t = h /\
  (forall vs esc, jenc esc t (VStruct vs) = scanned (marshal h fs vs (encs vs fs))) /\
  ((forall v, unmarshal h (shape_of j) t (zeros_of fs) = Ok v -> forall esc o, jenc esc t v = Ok o -> said (erase o) j) -> told_at j t).
Proof.
  intros B O H. destruct (hook_cases t) as [U|[->|(h & fs & T)]]; [exfalso; exact (H (unhooked t U))|discriminate|]. exists h, fs.
  assert (L : h <> HLicense) by (intros ->; apply H; unfold unmarshal_hook; rewrite (hooked_marshal _ _ _ T); reflexivity).
  split; [exact T|]. split; [exact L|]. split; [unfold unmarshal_hook; rewrite (hooked_marshal _ _ _ T); destruct h; try reflexivity; contradiction|]. split.
  - intros vs esc. rewrite jenc_struct, (hooked_marshal _ _ _ T), (hooked_fields _ _ _ T). inversion T; subst; reflexivity.
  - intros D v E. rewrite jdec_eq, (hooked_node _ _ _ _ _ T L), (zero_struct _ _ (hooked_kind _ _ _ T)) in E. cbn [fields_of_val] in E.
    apply D. unfold hooked in E. destruct (unmarshal h (shape_of j) t (zeros_of fs)); [injection E as ->; reflexivity|discriminate].
Qed.
Lemma hook_dec t : {unmarshal_hook t = HNone} + {unmarshal_hook t <> HNone}.
Proof. destruct (unmarshal_hook t); [left; reflexivity|right; discriminate..]. Qed.

Lemma silent_members ms : (forall k o, In (k, o) ms -> silent (erase o)) -> silent (erase (OObj ms)).
Proof. intros H. cbn [erase]. apply si_obj. intros k j Hj. apply in_map_iff in Hj as ((k' & o) & [= <- <-] & Ho). exact (H _ _ Ho). Qed.
Lemma null_told : told JNull.
Proof.
  intros t O W U Q. induction t; try (apply plain_told; [reflexivity|reflexivity|]; intros v P esc o E; injection P as <-; apply said_nothing; eapply zero_silent; [exact O| |exact E]; reflexivity).
  - intros v E esc o Eo. rewrite jdec_eq in E. cbn [node shape_of] in E. injection E as <-. injection Eo as <-. apply said_nothing. constructor.
  - destruct (hook_dec (TRef name)) as [H|H].
    + apply plain_told; [reflexivity|exact H|]. intros v P esc o E. apply said_nothing. eapply (zero_silent v (TRef name) esc o O); [|exact E]. cbn [shape_of] in P. unfold plain in P.
      destruct (kind_of (TRef name)) eqn:K; try (injection P as <-; first [apply bare_of|reflexivity]). cbn [dec_struct] in P. injection P as <-. rewrite (zero_struct _ _ K). cbn [fields_of_val]. rewrite <- (zero_struct _ _ K). apply bare_of.
    + destruct (hook_told JNull (TRef name) eq_refl O H) as (h & fs & T & L & _ & Je & D). apply D. intros v E esc o Eo. apply said_nothing.
      inversion T; subst; vm_compute in E; try discriminate E; try contradiction; injection E as <-; vm_compute in Eo; try discriminate Eo; injection Eo as <-; apply silent_members; intros k o Ho; cbn [In] in Ho;
        repeat (destruct Ho as [[= <- <-]|Ho]; [cbn; constructor|]); contradiction Ho.
Qed.
Ltac scalar_hooks j t B O H :=
  let h := fresh "h" in let fs := fresh "fs" in let T := fresh "T" in let L := fresh "L" in let D := fresh "D" in let E := fresh "E" in let v := fresh "v" in
  destruct (hook_told j t B O H) as (h & fs & T & L & _ & _ & D); apply D; intros v E; exfalso; inversion T; subst; first [contradiction|vm_compute in E; discriminate E].
Lemma bool_told b : told (JBool b).
Proof.
  apply told_base; [reflexivity|]. intros t B O W U Q. destruct (hook_dec t) as [H|H]; [|scalar_hooks (JBool b) t B O H].
  apply plain_told; [exact B|exact H|]. intros v P esc o E. cbn [shape_of] in P. unfold plain in P. destruct (kind_of t); try discriminate P. injection P as <-. injection E as <-. apply said_bool.
Qed.
Lemma num_told lit : told (JNum lit).
Proof.
  apply told_base; [reflexivity|]. intros t B O W U Q. destruct (hook_dec t) as [H|H]; [|scalar_hooks (JNum lit) t B O H].
  apply plain_told; [exact B|exact H|]. intros v P esc o E. cbn [shape_of] in P. unfold plain in P. destruct (kind_of t); try discriminate P.
  - destruct (atoi lit) as [z|] eqn:A; [|discriminate]. injection P as <-. assert (o = ONum (format_int z)) as ->. { cbn [jenc] in E. pose proof (no_version t O). destruct (marshal_hook t); try contradiction; injection E as <-; reflexivity. }
    cbn [erase]. apply (said_int _ _ z); [|exact A]. apply atoi_format. exact (atoi_int _ _ A).
  - set (b := match t with TF32 => true | _ => false end) in P. destruct (parse_float b lit) as [f|] eqn:Pf; [|discriminate]. injection P as <-.
    destruct f as [neg m e| |]; cbn [jenc] in E; try discriminate. injection E as <-. cbn [erase]. apply (said_num b _ _ _ (parse_json_float _ _ _ _ (parse_float_ok _ _ _ Pf)) Pf).
Qed.
Ltac ikev2 x U E Eo Je :=
  vm_compute in E; injection E as <-; rewrite Je in Eo; apply scanned_ok in Eo; destruct (String.eqb_spec x "") as [->|N];
    [vm_compute in Eo; injection Eo as <-; apply said_nothing, silent_members; contradiction
    |cbn [marshal encs fields_IKEv2Auth fields_IKEv2Enc fields_IKEv2Integ fields_IKEv2Ke fields_IKEv2Prf] in Eo; unfold nonempty in Eo; cbn [str_of] in Eo; rewrite (proj2 (String.eqb_neq _ _) N) in Eo; injection Eo as <-; cbn [erase]; rewrite (to_utf8_valid x U); apply said_str].
Lemma str_told x : told (JStr x).
Proof.
  apply told_base; [reflexivity|]. intros t B O W U Q. destruct (hook_dec t) as [H|H].
  - apply plain_told; [exact B|exact H|]. intros v P esc o E. cbn [shape_of] in P. unfold plain in P. destruct (kind_of t); try discriminate P. injection P as <-. injection E as <-. cbn [erase]. rewrite (to_utf8_valid x U). apply said_str.
  - destruct (hook_told (JStr x) t B O H) as (h & fs & T & L & _ & Je & D). apply D. clear D. intros v E esc o Eo. destruct T; try contradiction; try (exfalso; vm_compute in E; discriminate E).
    + vm_compute in E. injection E as <-. rewrite Je in Eo. apply scanned_ok in Eo. cbn [marshal encs] in Eo. change (nonempty (VStr x)) with (negb (String.eqb x "")) in Eo.
      destruct (String.eqb_spec x "") as [->|N]; cbn [negb] in Eo; injection Eo as <-; [apply said_nothing, si_obj; contradiction|]. cbn [erase]. rewrite (to_utf8_valid x U). apply said_str.
    + ikev2 x U E Eo Je.
    + ikev2 x U E Eo Je.
    + ikev2 x U E Eo Je.
    + ikev2 x U E Eo Je.
    + ikev2 x U E Eo Je.
Qed.
Lemma elements_told t : okty t = true -> wk t = true -> forall l vs, Forall told l -> doc_utf8 (JArr l) -> doc_unique (JArr l) ->
  dec_elements (map jdec l) t [] = inl (vs, None) -> forall esc os, enc_elements esc t vs = Ok os -> Forall2 said (map erase os) l.
Proof.
  intros O W. induction l as [|j l IH]; intros vs G U Q D esc os E; cbn [map dec_elements hd tl] in D; [injection D as <-; injection E as <-; constructor|].
  destruct (jdec j t (zero_of t)) as [v err|] eqn:Dj; [|discriminate]. destruct (dec_elements (map jdec l) t []) as [[vs' err']|] eqn:D'; [|discriminate]. destruct err; [discriminate|]. injection D as <- ->.
  destruct U as (Uj & U). destruct Q as (Qj & Q). inversion G as [|? ? Gj G']; subst. cbn [enc_elements] in E. apply bind_ok in E as (o & Eo & E). apply bind_ok in E as (os' & Eos & E). injection E as <-. cbn [map].
  constructor; [exact (Gj t O W Uj Qj v Dj esc o Eo)|exact (IH vs' G' U Q eq_refl esc os' Eos)].
Qed.
Lemma list_told t l v esc : okty t = true -> wk t = true -> Forall told l -> doc_utf8 (JArr l) -> doc_unique (JArr l) ->
  plain (SArr (map jdec l)) (TSlice t) (VSlice None) = DVal v None -> forall o, jenc esc (TPtr (TSlice t)) (some_ptr v) = Ok o -> said (erase o) (JArr l).
Proof.
  intros O W G U Q P o E. unfold plain in P. cbn in P. destruct (dec_elements (map jdec l) t []) as [[vs err]|] eqn:D; [|discriminate]. injection P as <- ->.
  change (jenc esc (TSlice t) (VSlice (Some vs)) = Ok o) in E. rewrite jenc_slice in E.
  apply bind_ok in E as (os & E & Eo). injection Eo as <-. cbn [erase]. apply said_arr. exact (elements_told t O W l vs G U Q D esc os E).
Qed.
Lemma arr_told l : Forall told l -> told (JArr l).
Proof.
  intros G. apply told_base; [reflexivity|]. intros t B O W U Q. destruct (hook_dec t) as [H|H].
  - apply plain_told; [exact B|exact H|]. intros v P esc o E. cbn [shape_of] in P. unfold plain in P. destruct (kind_of t) as [| | | | |t'| |] eqn:K; try discriminate P.
    assert (Z : list_of_slice (zero_of t) = []) by (unfold zero_of; cbn [zero_n]; rewrite K; reflexivity).
    rewrite Z in P. destruct (dec_elements (map jdec l) t' []) as [[vs err]|] eqn:D; [|discriminate]. injection P as <- ->.
    rewrite jenc_slice in E. apply bind_ok in E as (os & E & Eo). injection Eo as <-. cbn [erase]. apply said_arr. unfold elem_ty in E. rewrite K in E.
    exact (elements_told t' (slice_okty _ _ O K) (wk_slice _ _ W K) l vs G U Q D esc os E).
  - destruct (hook_told (JArr l) t B O H) as (h & fs & T & L & _ & Je & D). apply D. clear D. intros v E esc o Eo. cbn [shape_of] in E.
    assert (K : h = HTools \/ h = HIdentity).
    { clear -T L E. generalize dependent (map jdec l). intros ds E. destruct T; try contradiction; try (left; reflexivity); try (right; reflexivity); exfalso; vm_compute in E; discriminate E. }
    destruct T; destruct K as [K|K]; try discriminate K.
    + cbn [unmarshal] in E. change (unmarshal_into (SArr (map jdec l)) (TRef "toolsChoiceJSON")) with (Err (A := val) (EType "array")) in E. cbv iota beta in E.
      apply bind_ok in E as (w & Ew & E). injection E as <-. apply unmarshal_plain in Ew. change (zero_of (TSlice (TRef "Tool"))) with (VSlice None) in Ew.
      rewrite Je in Eo. apply scanned_ok in Eo. exact (list_told (TRef "Tool") l w true eq_refl eq_refl G U Q Ew o Eo).
    + change (unmarshal HIdentity (SArr (map jdec l)) (TRef "EvidenceIdentityChoice") (zeros_of fields_EvidenceIdentityChoice)) with
        (bind (unmarshal_into (SArr (map jdec l)) (TSlice (TRef "EvidenceIdentity"))) (fun l => Ok (VStruct [VPtr None; some_ptr l]))) in E.
      apply bind_ok in E as (w & Ew & E). injection E as <-. apply unmarshal_plain in Ew. change (zero_of (TSlice (TRef "EvidenceIdentity"))) with (VSlice None) in Ew.
      rewrite Je in Eo. apply scanned_ok in Eo. exact (list_told (TRef "EvidenceIdentity") l w true eq_refl eq_refl G U Q Ew o Eo).
Qed.

(** Objects *)
Lemma enc_from fs : forall vs esc ms n o, enc_members esc fs vs (encs vs fs) = Ok ms -> In (n, o) ms ->
  exists i f v om, nth_error fs i = Some f /\ nth_error vs i = Some v /\ json_info f = Some (n, om) /\ jenc esc (f_ty f) v = Ok o.
Proof.
  induction fs as [|f fs IH]; intros vs esc ms n o E Ho; [destruct vs; injection E as <-; contradiction|]. destruct vs as [|v vs]; [injection E as <-; contradiction|]. cbn [encs enc_members] in E.
  assert (S : forall ms, enc_members esc fs vs (encs vs fs) = Ok ms -> In (n, o) ms -> exists i f0 v0 om, nth_error (f :: fs) i = Some f0 /\ nth_error (v :: vs) i = Some v0 /\ json_info f0 = Some (n, om) /\ jenc esc (f_ty f0) v0 = Ok o).
  { intros ms' E' H'. destruct (IH vs esc ms' n o E' H') as (i & f0 & v0 & om & H). exists (S i), f0, v0, om. exact H. }
  destruct (json_info f) as [[n' om]|] eqn:J; [|exact (S ms E Ho)]. destruct (om && empty_value v)%bool; [exact (S ms E Ho)|].
  apply bind_ok in E as (o1 & E1 & E). apply bind_ok in E as (ms' & E2 & E). injection E as <-. destruct Ho as [[= -> ->]|Ho]; [|exact (S ms' E2 Ho)].
  exists 0, f, v, om. repeat split; assumption.
Qed.
(** [except]: fields about which something else is known *)
Lemma object_said l fs vs esc o (except : field -> val -> Prop) : Forall (fun m => told (snd m)) l -> (forall i f v, nth_error fs i = Some f -> nth_error vs i = Some v -> okty (f_ty f) = true \/ except f v) -> wks fs -> names_ok fs -> doc_utf8 (JObj l) -> doc_unique (JObj l) ->
  (forall i f v n om o, nth_error fs i = Some f -> nth_error vs i = Some v -> except f v -> json_info f = Some (n, om) -> jenc esc (f_ty f) v = Ok o -> exists k j, In (k, j) l /\ fold_name k = fold_name n /\ said (erase o) j) ->
  dec_members (as_members l) fs (zeros_of fs) = inl (vs, None) -> enc_struct esc fs vs (encs vs fs) = Ok o -> said (erase o) (JObj l).
Proof.
  intros G O W NO U Q X D E. unfold enc_struct in E. apply bind_ok in E as (ms & E & Eo). injection Eo as <-. cbn [erase]. apply said_obj. intros k' j' Hj. apply in_map_iff in Hj as ((n & o) & [= <- <-] & Ho). cbn [fst snd].
  destruct (enc_from fs vs esc ms n o E Ho) as (i & f & v & om & Nf & Nv & J & Eo). destruct (O i f v Nf Nv) as [Of|Xf]; [|right; exact (X i f v n om o Nf Nv Xf J Eo)].
  assert (Z : forall i f, nth_error fs i = Some f -> nth_error (zeros_of fs) i = Some (zero_of (f_ty f))) by (intros i' f' Nf'; apply zeros_nth, Nf').
  destruct (dec_unique fs NO (as_members l) (zeros_of fs) vs) as (_ & Dd); [rewrite as_members_keys; exact (proj1 Q)|unfold zeros_of; apply map_length|intros i' f' n' om' Nf' _ _; exact (Z i' f' Nf')|exact D|].
  destruct (Dd i f Nf) as [(_ & N)|(v' & Nv' & n' & om' & k & m & J' & Hm & Fk & Dm)].
  - left. rewrite (Z i f Nf), Nv in N. injection N as ->. exact (zero_silent _ _ _ _ Of (bare_of _) Eo).
  - right. rewrite Nv in Nv'. injection Nv' as <-. rewrite J in J'. injection J' as <- <-. apply as_members_in in Hm as (j & Hj & ->). exists k, j. split; [exact Hj|]. split; [exact Fk|].
    rewrite Forall_forall in G. unfold wks in W. rewrite Forall_forall in W. apply (G _ Hj (f_ty f) Of (W _ (nth_error_In _ _ Nf)) (part_utf8 _ _ _ U Hj) (part_unique _ _ _ Q Hj) v Dm esc o Eo).
Qed.
Lemma into_said l t fs v : Forall (fun m => told (snd m)) l -> okty t = true -> kind_of t = KStruct fs -> doc_utf8 (JObj l) -> doc_unique (JObj l) ->
  plain (SObj (as_members l)) t (zero_of t) = DVal v None -> exists vs, v = VStruct vs /\ dec_members (as_members l) fs (zeros_of fs) = inl (vs, None) /\ forall esc o, enc_struct esc fs vs (encs vs fs) = Ok o -> said (erase o) (JObj l).
Proof.
  intros G O K U Q E. unfold plain in E. rewrite K, (zero_struct _ _ K) in E. cbn [dec_struct fields_of_val] in E. destruct (dec_members (as_members l) fs (zeros_of fs)) as [[vs err]|] eqn:D; [|discriminate]. injection E as <- ->.
  exists vs. split; [reflexivity|]. split; [reflexivity|]. intros esc o Eo. refine (object_said l fs vs esc o (fun _ _ => False) G _ (wk_struct _ _ K) (struct_names _ _ K) U Q _ D Eo); [|contradiction].
  intros i f v Nf _. left. pose proof (struct_okty t fs O K) as F. rewrite Forall_forall in F. exact (F f (nth_error_In _ _ Nf)).
Qed.
Lemma chosen_said l t fs v esc o : Forall (fun m => told (snd m)) l -> okty t = true -> kind_of t = KStruct fs -> marshal_hook t = HNone -> doc_utf8 (JObj l) -> doc_unique (JObj l) ->
  unmarshal_into (SObj (as_members l)) t = Ok v -> jenc esc t v = Ok o -> said (erase o) (JObj l).
Proof.
  intros G O K M U Q E Eo. apply unmarshal_plain in E. destruct (into_said l t fs v G O K U Q E) as (vs & -> & _ & S). rewrite jenc_struct, M in Eo. unfold fields_of in Eo. rewrite K in Eo. exact (S esc o Eo).
Qed.
Lemma raw_from l : forall cur i d, nth_error (dec_raw (as_members l) cur) i = Some (Some d) -> nth_error cur i = Some (Some d) \/ exists k j, In (k, j) l /\ find_field raw_fields k = Some i /\ d = jdec j.
Proof.
  induction l as [|[k j] l IH]; intros cur i d N; [left; exact N|]. cbn [as_members map dec_raw fst snd] in N. fold (as_members l) in N. destruct (IH _ _ _ N) as [H|(k' & j' & Hj & F & ->)]; [|right; exists k', j'; repeat split; try assumption; right; exact Hj].
  destruct (find_field raw_fields k) as [i'|] eqn:F; [|left; exact H]. cbn [m_null m_dec] in H. destruct (Nat.eq_dec i' i) as [->|Ne].
  - destruct (Nat.lt_ge_cases i (length cur)) as [Lt|Ge].
    + rewrite nth_set_same in H by exact Lt. destruct (is_null j); [discriminate|]. injection H as <-. right. exists k, j. repeat split; [left; reflexivity|exact F].
    + exfalso. assert (N' : nth_error (set_nth i (if is_null j then None else Some (jdec j)) cur) i = None) by (apply nth_error_None; rewrite set_nth_length; exact Ge). congruence.
  - left. rewrite nth_set_other in H by congruence. exact H.
Qed.
Lemma raw_said l i f n om t d w o : nth_error raw_fields i = Some f -> json_info f = Some (n, om) -> Forall (fun m => told (snd m)) l -> okty t = true -> wk t = true -> doc_utf8 (JObj l) -> doc_unique (JObj l) ->
  nth_error (dec_raw (as_members l) [None; None; None]) i = Some (Some d) -> d t (zero_of t) = DVal w None -> jenc true t w = Ok o -> said (erase (OObj [(n, o)])) (JObj l).
Proof.
  intros Nf J G O W U Q R D E. destruct (raw_from l _ i d R) as [C|(k & j & Hj & F & ->)]; [destruct i as [|[|[|[|]]]]; discriminate C|].
  destruct (find_field_sound _ _ _ F) as (f' & n' & om' & Nf' & J' & Fn). rewrite Nf in Nf'. injection Nf' as <-. rewrite J in J'. injection J' as <- <-. rewrite Forall_forall in G.
  cbn [erase map fst snd]. apply said_obj. intros k' j' [[= <- <-]|[]]. right. exists k, j. split; [exact Hj|]. split; [congruence|]. exact (G _ Hj t O W (part_utf8 _ _ _ U Hj) (part_unique _ _ _ Q Hj) w D true o E).
Qed.
Lemma ref_untouched l t fs f fs' vs : kind_of t = KStruct fs -> fs = f :: fs' -> json_info f = None -> doc_unique (JObj l) -> dec_members (as_members l) fs (zeros_of fs) = inl (vs, None) -> nth_error vs 0 = Some (zero_of (f_ty f)).
Proof.
  intros K F J Q D. destruct (decoded_fields l fs vs (proj1 Q) (struct_names _ _ K) D) as (_ & _ & Un). apply (Un 0 f); [rewrite F; reflexivity|]. intros k j n om _ J'. congruence.
Qed.
Ltac ikev2_obj l t G U Q E Eo Je :=
  let vs := fresh "vs" in let D := fresh "D" in let S := fresh "S" in let N := fresh "N" in
  match type of E with unmarshal _ _ _ (zeros_of ?fs) = Ok ?v =>
    assert (Ep : plain (SObj (as_members l)) t (zero_of t) = DVal v None) by (rewrite (zero_struct t fs eq_refl); apply finish_ok; exact E);
    destruct (into_said l t fs v G eq_refl eq_refl U Q Ep) as (vs & -> & D & S);
    pose proof (ref_untouched l t fs _ _ vs eq_refl eq_refl eq_refl Q D) as N end;
  rewrite Je in Eo; apply scanned_ok in Eo; destruct vs as [|r vs]; [discriminate N|]; injection N as ->; apply (S true); exact Eo.
Lemma obj_told l : Forall (fun m => told (snd m)) l -> told (JObj l).
Proof.
  intros G. apply told_base; [reflexivity|]. intros t B O W U Q. destruct (hook_dec t) as [H|H].
  - apply plain_told; [exact B|exact H|]. intros v P esc o E. cbn [shape_of] in P. fold (as_members l) in P. destruct (kind_of t) as [| | | | | |fs|] eqn:K; try (unfold plain in P; rewrite K in P; discriminate P).
    destruct (into_said l t fs v G O K U Q P) as (vs & -> & _ & S). rewrite jenc_struct in E. assert (Fs : fields_of t = fs) by (unfold fields_of; rewrite K; reflexivity). unfold unmarshal_hook in H. destruct (marshal_hook t) eqn:Mh; try discriminate H.
    + rewrite Fs in E. exact (S esc o E).
    + apply scanned_ok in E. apply (license_ok t vs o Mh) in E. rewrite Fs in E. exact (S true o E).
  - destruct (hook_told (JObj l) t B O H) as (h & fs & T & L & _ & Je & D). apply D. clear D. intros v E esc o Eo. cbn [shape_of] in E. fold (as_members l) in E. destruct T; try contradiction.
    + change (zeros_of fields_EnvironmentVariableChoice) with [VPtr None; VStr ""] in E. cbn [unmarshal] in E. destruct (plain (SObj (as_members l)) (TRef "Property") (zero_of (TRef "Property"))) as [p err|e] eqn:Ep; [|discriminate].
      assert (Er : err = None). { destruct err as [e|]; [|reflexivity]. exfalso. apply (property_error l p e Ep). destruct e as [| | | | | |s|]; try discriminate E. destruct (string_dec s "string") as [->|Ns]; [reflexivity|]. exfalso. clear -E Ns. repeat (destruct s as [|[[] [] [] [] [] [] [] []] s]; try discriminate E). apply Ns; reflexivity. }
      subst err. destruct (into_said l (TRef "Property") _ p G eq_refl eq_refl U Q Ep) as (vs & -> & _ & S). destruct (zero_value (VStruct vs)) eqn:Zv; cbn [negb] in E.
      * unfold plain in E. cbn in E. injection E as <-. rewrite Je in Eo. apply scanned_ok in Eo. injection Eo as <-. apply said_nothing, silent_members. contradiction.
      * injection E as <-. rewrite Je in Eo. apply scanned_ok in Eo. cbn [marshal encs some_ptr] in Eo. rewrite Zv in Eo. cbn [negb] in Eo. apply (S true o). exact Eo.
    + change (zeros_of fields_MLDatasetChoice) with [VStr ""; VPtr None] in E. cbn [unmarshal] in E. apply bind_ok in E as (r & Er & E). apply unmarshal_plain in Er.
      destruct (into_said l (TRef "mlDatasetChoiceRefJSON") _ r G eq_refl eq_refl U Q Er) as (vs & -> & _ & S). destruct vs as [|[x| | | | | |] [|? ?]]; try discriminate E.
      destruct (String.eqb x "") eqn:Nx; cbn [negb] in E.
      * apply bind_ok in E as (w & Ew & E). injection E as <-. rewrite Je in Eo. apply scanned_ok in Eo. destruct (zero_value w) eqn:Zw.
        -- injection Eo as <-. apply said_nothing, silent_members. contradiction.
        -- exact (chosen_said l (TRef "ComponentData") _ w true o G eq_refl eq_refl eq_refl U Q Ew Eo).
      * injection E as <-. rewrite Je in Eo. apply scanned_ok in Eo. cbn [marshal encs fields_MLDatasetChoice] in Eo. unfold nonempty in Eo. cbn [str_of] in Eo. rewrite Nx in Eo. cbn [negb] in Eo. apply (S true o). exact Eo.
    + change (zeros_of fields_ToolsChoice) with [VPtr None; VPtr None; VPtr None] in E. cbn [unmarshal] in E.
      destruct (unmarshal_into (SObj (as_members l)) (TRef "toolsChoiceJSON")) as [w|e] eqn:Ew; [|exfalso; exact (tools_error l e _ E)].
      apply unmarshal_plain in Ew. destruct (into_said l (TRef "toolsChoiceJSON") _ w G eq_refl eq_refl U Q Ew) as (vs & -> & _ & S). destruct vs as [|a [|b [|? ?]]]; try discriminate E. injection E as <-.
      destruct (nonnil a || nonnil b)%bool eqn:Nn; rewrite Je in Eo; apply scanned_ok in Eo; [|discriminate Eo]. cbn [marshal encs fields_ToolsChoice] in Eo. change (nonnil (VPtr None)) with false in Eo. cbn [andb] in Eo. rewrite Nn in Eo. apply (S true o). exact Eo.
    + change (zeros_of fields_EvidenceIdentityChoice) with [VPtr None; VPtr None] in E. cbn [unmarshal] in E. apply bind_ok in E as (w & Ew & E). injection E as <-. rewrite Je in Eo. apply scanned_ok in Eo.
      exact (chosen_said l (TRef "EvidenceIdentity") _ w true o G eq_refl eq_refl eq_refl U Q Ew Eo).
    + change (zeros_of fields_CertificateState) with [VPtr None; VPtr None] in E. cbn [unmarshal] in E. apply bind_ok in E as (x & _ & E). destruct (negb (String.eqb x "")); apply bind_ok in E as (w & Ew & E); injection E as <-; rewrite Je in Eo; apply scanned_ok in Eo.
      * exact (chosen_said l (TRef "PredefinedCertificateState") _ w true o G eq_refl eq_refl eq_refl U Q Ew Eo).
      * exact (chosen_said l (TRef "CustomCertificateState") _ w true o G eq_refl eq_refl eq_refl U Q Ew Eo).
    + change (zeros_of fields_CertificateExtension) with [VPtr None; VPtr None] in E. cbn [unmarshal] in E. apply bind_ok in E as (x & _ & E). destruct (negb (String.eqb x "")); apply bind_ok in E as (w & Ew & E); injection E as <-; rewrite Je in Eo; apply scanned_ok in Eo.
      * exact (chosen_said l (TRef "CommonCertificateExtension") _ w true o G eq_refl eq_refl eq_refl U Q Ew Eo).
      * exact (chosen_said l (TRef "CustomCertificateExtension") _ w true o G eq_refl eq_refl eq_refl U Q Ew Eo).
    + change (zeros_of fields_AsserterChoice) with [VPtr None; VPtr None; VPtr None] in E. cbn [unmarshal] in E. destruct (dec_raw (as_members l) [None; None; None]) as [|r1 [|r2 [|r3 [|? ?]]]] eqn:R.
      1-3: destruct r1 || idtac; try destruct r2; injection E as <-; rewrite Je in Eo; apply scanned_ok in Eo; injection Eo as <-; apply said_nothing, silent_members; contradiction.
      2: destruct r1, r2, r3; injection E as <-; rewrite Je in Eo; apply scanned_ok in Eo; injection Eo as <-; apply said_nothing, silent_members; contradiction.
      destruct r1 as [d|]; [|destruct r2 as [d|]; [|destruct r3 as [d|]]].
      * apply bind_ok in E as (w & Ew & E). injection E as <-. rewrite Je in Eo. apply scanned_ok in Eo. apply bind_ok in Eo as (o1 & E1 & Eo). injection Eo as <-. apply finish_ok in Ew.
        exact (raw_said l 0 _ _ _ (TRef "OrganizationalEntity") d w o1 eq_refl eq_refl G eq_refl eq_refl U Q (f_equal (fun r => nth_error r 0) R) Ew E1).
      * apply bind_ok in E as (w & Ew & E). injection E as <-. rewrite Je in Eo. apply scanned_ok in Eo. apply bind_ok in Eo as (o1 & E1 & Eo). injection Eo as <-. apply finish_ok in Ew.
        exact (raw_said l 1 _ _ _ (TRef "OrganizationalContact") d w o1 eq_refl eq_refl G eq_refl eq_refl U Q (f_equal (fun r => nth_error r 1) R) Ew E1).
      * apply bind_ok in E as (w & Ew & E). injection E as <-. rewrite Je in Eo. apply scanned_ok in Eo. apply bind_ok in Eo as (o1 & E1 & Eo). injection Eo as <-. apply finish_ok in Ew.
        exact (raw_said l 2 _ _ _ (TRef "BOMReference") d w o1 eq_refl eq_refl G eq_refl eq_refl U Q (f_equal (fun r => nth_error r 2) R) Ew E1).
      * injection E as <-. rewrite Je in Eo. apply scanned_ok in Eo. injection Eo as <-. apply said_nothing, silent_members. contradiction.
    + ikev2_obj l (TRef "IKEv2Auth") G U Q E Eo Je.
    + ikev2_obj l (TRef "IKEv2Enc") G U Q E Eo Je.
    + ikev2_obj l (TRef "IKEv2Integ") G U Q E Eo Je.
    + ikev2_obj l (TRef "IKEv2Ke") G U Q E Eo Je.
    + ikev2_obj l (TRef "IKEv2Prf") G U Q E Eo Je.
    + change (zeros_of fields_PatentChoice) with [VPtr None; VPtr None] in E. cbn [unmarshal] in E. apply bind_ok in E as (x & _ & E). destruct (negb (String.eqb x "")); apply bind_ok in E as (w & Ew & E); injection E as <-; rewrite Je in Eo; apply scanned_ok in Eo.
      * exact (chosen_said l (TRef "PatentFamily") _ w true o G eq_refl eq_refl eq_refl U Q Ew Eo).
      * exact (chosen_said l (TRef "Patent") _ w true o G eq_refl eq_refl eq_refl U Q Ew Eo).
Qed.
Theorem all_told j : told j.
Proof.
  induction j as [|b|lit|x|l IH|ms IH] using json_induction; [apply null_told|apply bool_told|apply num_told|apply str_told|apply arr_told, IH|apply obj_told, IH].
Qed.

(** ** The whole document *)
Lemma version_said x z : parse_spec_version x = Some z -> SpecVersion_String z = x.
Proof.
  intros P. apply VersionProofs.parse_spec_version_spec in P as (V & ->). pose proof (VersionProofs.spec_version_roundtrip z V) as R. apply VersionProofs.parse_spec_version_spec in R as (_ & R). exact R.
Qed.
Lemma bom_fields_okty i f : nth_error fields_BOM i = Some f -> okty (f_ty f) = true \/ i = 4.
Proof.
  intros N. do 25 (destruct i as [|i]; [first [discriminate N|injection N as <-; first [left; reflexivity|right; reflexivity]]|try discriminate N]).
Qed.
Lemma version_dec s : jdec (JStr s) (TRef "SpecVersion") (zero_of (TRef "SpecVersion")) = match parse_spec_version s with Some z => DVal (VInt z) None | None => DAbort EInvalidSpecVersion end.
Proof. rewrite jdec_eq. reflexivity. Qed.
Lemma version_enc esc z : jenc esc (TRef "SpecVersion") (VInt z) = Ok (OStr true (SpecVersion_String z)).
Proof. reflexivity. Qed.
Lemma version_strings j z : jdec j (TRef "SpecVersion") (zero_of (TRef "SpecVersion")) = DVal (VInt z) None -> exists s, j = JStr s /\ parse_spec_version s = Some z.
Proof.
  destruct j as [| | |s| |]; intros D; try (rewrite jdec_eq in D; discriminate D). rewrite version_dec in D. exists s. split; [reflexivity|]. destruct (parse_spec_version s); [injection D as ->; reflexivity|discriminate].
Qed.
Lemma version_zero z : zero_of (TRef "SpecVersion") = VInt z -> z = 0%Z.
Proof. intros E. injection E as <-. reflexivity. Qed.
Lemma field_4 f : nth_error fields_BOM 4 = Some f -> f_ty f = TRef "SpecVersion".
Proof. intros N. injection N as <-. reflexivity. Qed.
Lemma bom_said l vs esc o z : doc_utf8 (JObj l) -> doc_unique (JObj l) -> dec_members (as_members l) fields_BOM (zeros_of fields_BOM) = inl (vs, None) -> nth_error vs 4 = Some (VInt z) -> z <> 0%Z ->
  enc_struct esc fields_BOM vs (encs vs fields_BOM) = Ok o -> said (erase o) (JObj l).
Proof.
  intros U Q D N4 Nz E.
  refine (object_said l fields_BOM vs esc o (fun f v => f_ty f = TRef "SpecVersion" /\ v = VInt z) _ _ (wk_struct (TRef "BOM") _ eq_refl) (struct_names (TRef "BOM") _ eq_refl) U Q _ D E).
  - apply Forall_forall. intros m _. apply all_told.
  - intros i f w Nf Nw. destruct (bom_fields_okty i f Nf) as [O| ->]; [left; exact O|]. right. rewrite N4 in Nw. injection Nw as <-. split; [exact (field_4 f Nf)|reflexivity].
  - intros i f w n om o' Nf Nw (Tf & ->) J Eo.
    destruct (dec_unique fields_BOM (struct_names (TRef "BOM") _ eq_refl) (as_members l) (zeros_of fields_BOM) vs) as (_ & Dd); [rewrite as_members_keys; exact (proj1 Q)|unfold zeros_of; apply map_length|intros i' f' n' om' Nf' _ _; apply zeros_nth, Nf'|exact D|].
    destruct (Dd i f Nf) as [(_ & N)|(v' & Nv' & n' & om' & k & m & J' & Hm & Fk & Dm)].
    + exfalso. rewrite (zeros_nth fields_BOM i f Nf), Nw, Tf in N. injection N as N. exact (Nz N).
    + rewrite Nw in Nv'. injection Nv' as <-. rewrite J in J'. injection J' as <- <-. apply as_members_in in Hm as (j & Hj & ->). exists k, j. split; [exact Hj|]. split; [exact Fk|]. cbn [m_dec] in Dm. rewrite Tf in Dm, Eo.
      destruct (version_strings j z Dm) as (s & -> & P). rewrite version_enc in Eo. injection Eo as <-. cbn [erase]. rewrite (version_said s z P), (to_utf8_valid s (part_utf8 _ _ _ U Hj)). apply said_str.
Qed.
Lemma reified_4 c vs : reify_BOM c = VStruct vs -> nth_error vs 4 = Some (VInt (BOM_SpecVersion c)).
Proof. intros F. unfold reify_BOM in F. injection F as <-. reflexivity. Qed.
Lemma bom_enc esc vs : jenc esc (TRef "BOM") (VStruct vs) = enc_struct esc fields_BOM vs (encs vs fields_BOM).
Proof. rewrite jenc_struct. reflexivity. Qed.
Lemma dval_inj v w e : DVal v e = DVal w e -> v = w.
Proof. intros E. injection E as E. exact E. Qed.
Lemma bom_null c : jdec JNull (TRef "BOM") (zero_of (TRef "BOM")) = DVal (reify_BOM c) None -> BOM_SpecVersion c = 0%Z.
Proof. rewrite jdec_eq. intros E. change (DVal (zero_of (TRef "BOM")) None = DVal (reify_BOM c) None) in E. apply dval_inj in E. symmetry in E. rewrite (zero_struct (TRef "BOM") fields_BOM eq_refl) in E. apply reified_4 in E. injection E as <-. reflexivity. Qed.
Lemma bom_dec j v : jdec j (TRef "BOM") (zero_of (TRef "BOM")) = DVal v None -> j = JNull \/ exists l vs, j = JObj l /\ v = VStruct vs /\ dec_members (as_members l) fields_BOM (zeros_of fields_BOM) = inl (vs, None).
Proof.
  intros V. rewrite jdec_eq, node_plain in V; [|discriminate|reflexivity]. destruct j as [| | | | |l]; [left; reflexivity|discriminate V..|]. right. exists l.
  cbn [shape_of] in V. fold (as_members l) in V. unfold plain in V. change (kind_of (TRef "BOM")) with (KStruct fields_BOM) in V. cbv beta iota in V. rewrite (zero_struct (TRef "BOM") fields_BOM eq_refl) in V. cbn [dec_struct fields_of_val] in V.
  destruct (dec_members (as_members l) fields_BOM (zeros_of fields_BOM)) as [[vs err]|] eqn:D; [|discriminate]. injection V as <- ->. exists vs. split; [reflexivity|]. split; reflexivity.
Qed.
Theorem nothing_new j c esc o : doc_utf8 j -> doc_unique j -> bom_of_json j zero_BOM = Ok c -> json_encode esc c = Ok o -> said (erase o) j.
Proof.
  intros U Q B E. unfold bom_of_json in B. destruct (too_deep j); [discriminate|]. apply bind_ok in B as (v & V & B). injection B as B. apply finish_ok in V. rewrite bom_zero in V.
  apply encode_writes in E as (E & Ge). pose proof (reify_reflect v (dec_fit j _ v U bom_wk V)) as F. rewrite B in F. rewrite bom_to_json_eq, F in E. clear B.
  assert (Nz : BOM_SpecVersion c <> 0%Z) by (intros Z; rewrite Z in Ge; apply Ge; reflexivity).
  destruct (bom_dec j v V) as [->|(l & vs & -> & -> & D)].
  - exfalso. rewrite <- F in V. exact (Nz (bom_null c V)).
  - rewrite bom_enc in E. exact (bom_said l vs esc o _ U Q D (reified_4 c vs F) Nz E).
Qed.
