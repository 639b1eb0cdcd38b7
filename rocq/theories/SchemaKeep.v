(** Nothing that a conforming document says is lost when it is decoded and encoded again, if
    the schema fits the Go types: for C43. *)
From Verif Require Import Base Types Univ TypeTable Wt ReifyBase Reify ReifyFacts Consts LinkModel Version ConvertSpec Numbers NumbersProofs Utf8 Utf8Proofs GobModel JsonModel JsonSpec JsonBack JsonProofs JsonRound JsonDecode JsonBom JsonTyped SchemaSpec SchemaProofs.
From Coq Require Import Lia.
Local Open Scope string_scope.

(** ** Has a schema a place in a type? *)
Definition member_holds (hold : schema -> ty -> needed) (fs : list field) (k : string) (s : schema) : needed :=
  match find_field fs k with
  | Some i => match nth_error fs i with
              | Some f => match json_info f with Some (n, _) => if String.eqb n k then hold s (f_ty f) else None | None => None end
              | None => None
              end
  | None => None
  end.
Definition members_hold (hold : schema -> ty -> needed) (fs : list field) : list (string * schema) -> needed :=
  fix go ms := match ms with [] => Some [] | m :: ms' => both (member_holds hold fs (fst m) (snd m)) (go ms') end.
Definition nowhere (fs : list field) (ms : list (string * schema)) : bool := forallb (fun m => match find_field fs (fst m) with None => true | Some _ => false end) ms.
Definition filled_schema (s : schema) : bool := match s with Filled => true | Words l => forallb (fun w => negb (String.eqb w "")) l | _ => false end.
(** One of two structs, depending on whether a member is there and not empty *)
Definition choose (hold : schema -> ty -> needed) (go key : string) (first second : ty) (ms : list (string * schema)) (required : list string) : needed :=
  match assoc key ms with
  | Some s => if (filled_schema s && existsb (String.eqb key) required)%bool then members_hold hold (fields_of first) ms else None
  | None => if nowhere (peek_field go key) ms then members_hold hold (fields_of second) ms else None
  end.
Fixpoint holds (s : schema) (t : ty) {struct s} : needed :=
  let t := base t in
  match s with
  | Ref n => Some [(n, t)]
  | OneOf l => all_need (fun s' => holds s' t) l
  | _ =>
      match unmarshal_hook t, s with
      | HNone, Object ms _ => match kind_of t with KStruct fs => members_hold holds fs ms | _ => None end
      | HNone, ListOf s' => match kind_of t with KSlice t' => holds s' t' | _ => None end
      | HNone, (Text | Filled | Words _) => match kind_of t with KStr => Some [] | _ => None end
      | HNone, Whole => match kind_of t with KInt => Some [] | _ => None end
      | HNone, Number => match kind_of t with KFlt => Some [] | _ => None end
      | HNone, Truth => match kind_of t with KBool => Some [] | _ => None end
      | HSpecVersion, Words l => if forallb (fun x => match parse_spec_version x with Some z => (negb (Z.eqb z 0) && String.eqb (SpecVersion_String z) x)%bool | None => false end) l then Some [] else None
      | HTools, ListOf s' => holds s' (TRef "Tool")
      | HTools, Object ms _ => members_hold holds fields_toolsChoiceJSON ms
      | HIdentity, ListOf s' => holds s' (TRef "EvidenceIdentity")
      | HIdentity, Object ms _ => members_hold holds (fields_of (TRef "EvidenceIdentity")) ms
      | HDataset, Object ms _ => if nowhere fields_mlDatasetChoiceRefJSON ms then members_hold holds (fields_of (TRef "ComponentData")) ms
                                 else members_hold holds fields_mlDatasetChoiceRefJSON ms
      | HEnvironmentVariable, (Text | Filled | Words _) => Some []
      | HEnvironmentVariable, Object ms _ => members_hold holds (fields_of (TRef "Property")) ms
      | HCertState, Object ms r => choose holds "State" "state" (TRef "PredefinedCertificateState") (TRef "CustomCertificateState") ms r
      | HCertExtension, Object ms r => choose holds "CommonExtensionName" "commonExtensionName" (TRef "CommonCertificateExtension") (TRef "CustomCertificateExtension") ms r
      | HPatent, Object ms r => choose holds "FamilyID" "familyId" (TRef "PatentFamily") (TRef "Patent") ms r
      | HIKEv2, (Text | Filled | Words _) => Some []
      | HIKEv2, Object ms _ => members_hold holds (fields_of t) ms
      | _, _ => None
      end
  end.
Definition keep_closed (d : schemas) (R : list (string * ty)) : bool :=
  forallb (fun p => wk (snd p) && match assoc (fst p) d with
                                  | Some s => match holds s (snd p) with Some l => forallb (fun q => pair_in q R) l | None => false end
                                  | None => false
                                  end)%bool R.
Fixpoint keep_explore (d : schemas) (fuel : nat) (todo seen : list (string * ty)) : list (string * ty) :=
  match fuel, todo with
  | S fuel', p :: todo' =>
      if pair_in p seen then keep_explore d fuel' todo' seen
      else keep_explore d fuel' (match assoc (fst p) d with Some s => match holds s (snd p) with Some l => l | None => [] end | None => [] end ++ todo')%list (p :: seen)
  | _, _ => seen
  end.
Definition keep_reached (d : schemas) : list (string * ty) := keep_explore d (N.to_nat 5000) [("", TRef "BOM")] [].
Definition keeping (d : schemas) : bool := (keep_closed d (keep_reached d) && pair_in ("", TRef "BOM") (keep_reached d))%bool.

(** ** It has if it says so *)
Lemma holds_base s t : holds s t = holds s (base t).
Proof. destruct s; cbn [holds]; rewrite base_base; reflexivity. Qed.
(** What has to be shown of a decoded value *)
Definition kept_in (j : json) (t : ty) (v : val) : Prop :=
  (forall esc o, jenc esc t v = Ok o -> kept j (erase o)) /\ (empty_value v = true -> blank j) /\ (zero_value v = true -> blank j).
Definition retained (j : json) (t : ty) : Prop := forall v, jdec j t (zero_of t) = DVal v None -> kept_in j t v.
Lemma keep_peel j t : is_null j = false -> retained j (base t) -> retained j t.
Proof.
  intros N. induction t; intros D; try exact D. cbn [base] in D. specialize (IHt D). intros v E. rewrite jdec_eq in E. cbn [node] in E.
  change (match zero_of (TPtr t) with VPtr (Some x) => x | _ => zero_of t end) with (zero_of t) in E. rewrite <- jdec_eq in E.
  assert (E' : exists x, jdec j t (zero_of t) = DVal x None /\ v = some_ptr x).
  { destruct (jdec j t (zero_of t)) as [x [e|]|e]; destruct j; try discriminate N; try discriminate E; injection E as <-; eexists; split; reflexivity. }
  destruct E' as (x & Ex & ->). destruct (IHt x Ex) as (K & _). split; [|split; discriminate]. intros esc o Eo. exact (K esc o Eo).
Qed.

Lemma wk_some_kind t : wk t = true -> kind_of t <> KBad. Proof. apply wk_kind. Qed.
Lemma enc_member fs : forall vs esc ms i f v n omit, enc_members esc fs vs (encs vs fs) = Ok ms -> nth_error fs i = Some f -> nth_error vs i = Some v -> json_info f = Some (n, omit) ->
  (omit = true /\ empty_value v = true) \/ exists o, jenc esc (f_ty f) v = Ok o /\ In (n, o) ms.
Proof.
  induction fs as [|g fs IH]; intros vs esc ms i f v n omit E Nf Nv J; [destruct i; discriminate|]. destruct vs as [|w vs]; [destruct i; discriminate|]. cbn [encs enc_members] in E. destruct i as [|i].
  - injection Nf as ->. injection Nv as ->. rewrite J in E. destruct (omit && empty_value v)%bool eqn:O; [left; apply andb_prop in O; exact O|].
    apply bind_ok in E as (o & Eo & E). apply bind_ok in E as (ms' & _ & E). injection E as <-. right. exists o. split; [exact Eo|left; reflexivity].
  - cbn [nth_error] in Nf, Nv. destruct (json_info g) as [[n' o']|]; [|eapply IH; eassumption]. destruct (o' && empty_value w)%bool; [eapply IH; eassumption|].
    apply bind_ok in E as (o & Eo & E). apply bind_ok in E as (ms' & E' & E). injection E as <-. destruct (IH _ _ _ _ _ _ _ _ E' Nf Nv J) as [H|(o2 & H1 & H2)]; [left; exact H|]. right. exists o2. split; [exact H1|right; exact H2].
Qed.

Section Keeps.
  Variables (d : schemas) (R : list (string * ty)).
  Hypothesis HR : keep_closed d R = true.
  Definition fine (s : schema) (j : json) : Prop := forall t l, holds s t = Some l -> incl l R -> wk t = true -> doc_utf8 j -> doc_unique j -> retained j t.
  Lemma fine_base s j : is_null j = false -> (forall t l, base t = t -> holds s t = Some l -> incl l R -> wk t = true -> doc_utf8 j -> doc_unique j -> retained j t) -> fine s j.
  Proof. intros N H t l E I W U Q. apply keep_peel; [exact N|]. apply (H (base t) l); [apply base_base|rewrite <- holds_base; exact E|exact I|apply base_wk, W|exact U|exact Q]. Qed.
  Lemma plain_keep j t : base t = t -> unmarshal_hook t = HNone -> (forall v, plain (shape_of j) t (zero_of t) = DVal v None -> kept_in j t v) -> retained j t.
  Proof. intros B H P v E. rewrite jdec_eq, node_plain in E; [exact (P v E)|rewrite <- B; apply base_no_ptr|exact H]. Qed.
  Lemma hook_keep j t : base t = t -> unmarshal_hook t <> HNone -> t = TRef "SpecVersion" \/ exists h fs, hooked_type t h fs /\ h <> HLicense /\ unmarshal_hook t = h /\ kind_of t = KStruct fs /\ fields_of t = fs /\
    (forall vs esc, jenc esc t (VStruct vs) = scanned (marshal h fs vs (encs vs fs))) /\
    ((forall v, unmarshal h (shape_of j) t (zeros_of fs) = Ok v -> kept_in j t v) -> retained j t).
  Proof.
    intros B H. destruct (hook_cases t) as [U|[->|(h & fs & T)]]; [exfalso; exact (H (unhooked t U))|left; reflexivity|]. right. exists h, fs.
    assert (L : h <> HLicense) by (intros ->; apply H; unfold unmarshal_hook; rewrite (hooked_marshal _ _ _ T); reflexivity).
    split; [exact T|]. split; [exact L|]. split; [unfold unmarshal_hook; rewrite (hooked_marshal _ _ _ T); destruct h; try reflexivity; contradiction|].
    split; [exact (hooked_kind _ _ _ T)|]. split; [exact (hooked_fields _ _ _ T)|]. split.
    - intros vs esc. rewrite jenc_struct, (hooked_marshal _ _ _ T), (hooked_fields _ _ _ T). inversion T; subst; reflexivity.
    - intros D v E. rewrite jdec_eq, (hooked_node _ _ _ _ _ T L), (zero_struct _ _ (hooked_kind _ _ _ T)) in E. cbn [fields_of_val] in E.
      apply D. unfold hooked in E. destruct (unmarshal h (shape_of j) t (zeros_of fs)); [injection E as ->; reflexivity|discriminate].
  Qed.

  Lemma held_in fs ms : forall nl k s, members_hold holds fs ms = Some nl -> assoc k ms = Some s ->
    exists i f om nl', find_field fs k = Some i /\ nth_error fs i = Some f /\ json_info f = Some (k, om) /\ holds s (f_ty f) = Some nl' /\ incl nl' nl.
  Proof.
    induction ms as [|[k' s'] ms IH]; intros nl k s E A; [discriminate|]. cbn [members_hold fst snd] in E. apply both_some in E as (x & y & E1 & E2 & ->).
    cbn [assoc] in A. destruct (String.eqb_spec k' k) as [->|_].
    - injection A as ->. unfold member_holds in E1. destruct (find_field fs k) as [i|]; [|discriminate]. destruct (nth_error fs i) as [f|] eqn:Nf; [|discriminate]. destruct (json_info f) as [[n om]|] eqn:J; [|discriminate].
      destruct (String.eqb_spec n k) as [->|]; [|discriminate]. exists i, f, om, x. repeat split; try assumption. apply incl_appl, incl_refl.
    - destruct (IH _ _ _ E2 A) as (i & f & om & nl' & H1 & H2 & H3 & H4 & I). exists i, f, om, nl'. repeat split; try assumption. apply incl_appr, I.
  Qed.
  Lemma assoc_of (ms : list (string * schema)) k : In k (map fst ms) -> exists s, assoc k ms = Some s.
  Proof.
    induction ms as [|[k' s'] ms IH]; [contradiction|]. intros Hk. cbn [assoc]. destruct (String.eqb_spec k' k) as [->|N]; [eexists; reflexivity|].
    apply IH. destruct Hk as [Hk|Hk]; [cbn in Hk; congruence|exact Hk].
  Qed.
  Lemma as_members_in l k m : In (k, m) (as_members l) -> exists j, In (k, j) l /\ m = mkMember (is_null j) (jdec j).
  Proof. unfold as_members. intros H. apply in_map_iff in H as ((k' & j) & [= <- <-] & H). exists j. auto. Qed.
  Lemma as_members_keys l : map (fun m => fold_name (fst m)) (as_members l) = map (fun m => fold_name (fst m)) l.
  Proof. unfold as_members. rewrite map_map. apply map_ext. intros []. reflexivity. Qed.
  Lemma unique_key {A} (l : list (string * A)) : NoDup (map (fun m => fold_name (fst m)) l) -> forall k k' x y, In (k, x) l -> In (k', y) l -> fold_name k = fold_name k' -> k = k' /\ x = y.
  Proof.
    induction l as [|[k0 x0] l IH]; intros ND k k' x y H1 H2 F; [contradiction|]. cbn [map fst] in ND. inversion ND as [|? ? NI ND']; subst.
    destruct H1 as [[= <- <-]|H1], H2 as [[= <- <-]|H2]; [auto| | |eapply IH; eassumption]; exfalso; apply NI; apply in_map_iff; eexists; (split; [|eassumption]); cbn [fst]; congruence.
  Qed.
  (** What the fields of a struct hold after an object was decoded *)
  Lemma decoded_fields l fs vs : NoDup (map (fun m => fold_name (fst m)) l) -> names_ok fs -> dec_members (as_members l) fs (zeros_of fs) = inl (vs, None) ->
    length vs = length fs /\
    (forall k j i f om, In (k, j) l -> nth_error fs i = Some f -> json_info f = Some (k, om) -> exists v, nth_error vs i = Some v /\ jdec j (f_ty f) (zero_of (f_ty f)) = DVal v None) /\
    (forall i f, nth_error fs i = Some f -> (forall k j n om, In (k, j) l -> json_info f = Some (n, om) -> fold_name k <> fold_name n) -> nth_error vs i = Some (zero_of (f_ty f))).
  Proof.
    intros ND NO E. assert (Z : forall i f, nth_error fs i = Some f -> nth_error (zeros_of fs) i = Some (zero_of (f_ty f))) by (intros i f Nf; apply zeros_nth, Nf).
    destruct (dec_unique fs NO (as_members l) (zeros_of fs) vs) as (L & D); [rewrite as_members_keys; exact ND|unfold zeros_of; apply map_length|intros i f n om Nf _ _; exact (Z i f Nf)|exact E|].
    split; [exact L|]. split.
    - intros k j i f om Hi Nf J. destruct (D i f Nf) as [(Un & _)|(v & Nv & n & om' & k' & m & J' & Hm & Fk & Dm)].
      + exfalso. apply (Un k om k (mkMember (is_null j) (jdec j)) J); [unfold as_members; apply in_map_iff; exists (k, j); auto|reflexivity].
      + exists v. split; [exact Nv|]. apply as_members_in in Hm as (j' & Hj & ->). rewrite J in J'. injection J' as <- <-.
        destruct (unique_key l ND k' k j' j Hj Hi Fk) as (-> & ->). exact Dm.
    - intros i f Nf No. destruct (D i f Nf) as [(_ & N)|(v & Nv & n & om' & k' & m & J' & Hm & Fk & Dm)]; [rewrite N; exact (Z i f Nf)|].
      exfalso. apply as_members_in in Hm as (j' & Hj & _). exact (No k' j' n om' Hj J' Fk).
  Qed.
  Lemma zero_at vs i v : forallb zero_value vs = true -> nth_error vs i = Some v -> zero_value v = true.
  Proof. intros F N. rewrite forallb_forall in F. apply F. eapply nth_error_In, N. Qed.
  Lemma part_utf8 l k j : doc_utf8 (JObj l) -> In (k, j) l -> doc_utf8 j.
  Proof. cbn [doc_utf8]. induction l as [|[k' j'] l IH]; [contradiction|]. intros (H & U) [[= <- <-]|Hi]; [exact H|exact (IH U Hi)]. Qed.
  Lemma part_unique l k j : doc_unique (JObj l) -> In (k, j) l -> doc_unique j.
  Proof. cbn [doc_unique]. intros (_ & Q). induction l as [|[k' j'] l IH]; [contradiction|]. destruct Q as (H & Q). intros [[= <- <-]|Hi]; [exact H|exact (IH Q Hi)]. Qed.

  Definition parts (ms : list (string * schema)) (l : list (string * json)) : Prop :=
    (forall k j, In (k, j) l -> In k (map fst ms)) /\ (forall k j s, In (k, j) l -> assoc k ms = Some s -> conforms d s j) /\ (forall k j s, In (k, j) l -> assoc k ms = Some s -> fine s j).
  Lemma object_kept ms l fs nl vs : parts ms l -> members_hold holds fs ms = Some nl -> incl nl R -> wks fs -> names_ok fs -> doc_utf8 (JObj l) -> doc_unique (JObj l) ->
    dec_members (as_members l) fs (zeros_of fs) = inl (vs, None) ->
    (forall esc o, enc_struct esc fs vs (encs vs fs) = Ok o -> kept (JObj l) (erase o)) /\ (forallb zero_value vs = true -> blank (JObj l)).
  Proof.
    intros (Ks & _ & G) M I W NO U Q D. destruct (decoded_fields l fs vs (proj1 Q) NO D) as (L & F & _).
    assert (P : forall k j, In (k, j) l -> exists i f om v, nth_error fs i = Some f /\ json_info f = Some (k, om) /\ nth_error vs i = Some v /\ kept_in j (f_ty f) v).
    { intros k j Hi. destruct (assoc_of ms k (Ks k j Hi)) as (s & A). destruct (held_in fs ms nl k s M A) as (i & f & om & nl' & _ & Nf & J & H & I').
      destruct (F k j i f om Hi Nf J) as (v & Nv & Dv). exists i, f, om, v. repeat split; try assumption;
      apply (G k j s Hi A (f_ty f) nl' H); try assumption; try (intros q Hq; apply I, I', Hq); try (eapply part_utf8; eassumption); try (eapply part_unique; eassumption);
      unfold wks in W; rewrite Forall_forall in W; apply W; eapply nth_error_In, Nf. }
    split.
    - intros esc o E. unfold enc_struct in E. apply bind_ok in E as (os & E & Eo). injection Eo as <-. cbn [erase]. apply kept_obj. intros k j Hi.
      destruct (P k j Hi) as (i & f & om & v & Nf & J & Nv & K & B & _). destruct (enc_member fs vs esc os i f v k om E Nf Nv J) as [(_ & Z)|(o & Eo & Ho)]; [left; exact (B Z)|].
      right. exists (erase o). split; [apply in_map_iff; exists (k, o); auto|exact (K esc o Eo)].
    - intros Z. apply bl_obj. intros k j Hi. destruct (P k j Hi) as (i & f & om & v & Nf & J & Nv & _ & _ & B). apply B. exact (zero_at vs i v Z Nv).
  Qed.
  Lemma into_kept ms l t fs nl v : parts ms l -> kind_of t = KStruct fs -> members_hold holds fs ms = Some nl -> incl nl R -> doc_utf8 (JObj l) -> doc_unique (JObj l) ->
    plain (SObj (as_members l)) t (zero_of t) = DVal v None ->
    exists vs, v = VStruct vs /\ dec_members (as_members l) fs (zeros_of fs) = inl (vs, None) /\ (forall esc o, enc_struct esc fs vs (encs vs fs) = Ok o -> kept (JObj l) (erase o)) /\ (zero_value v = true -> blank (JObj l)).
  Proof.
    intros P K M I U Q E. unfold plain in E. rewrite K, (zero_struct _ _ K) in E. cbn [dec_struct fields_of_val] in E. destruct (dec_members (as_members l) fs (zeros_of fs)) as [[vs err]|] eqn:D; [|discriminate]. injection E as <- ->.
    destruct (object_kept ms l fs nl vs P M I (wk_struct _ _ K) (struct_names _ _ K) U Q D) as (A & B). exists vs. auto.
  Qed.
  Lemma unmarshal_plain s t v : unmarshal_into s t = Ok v -> plain s t (zero_of t) = DVal v None.
  Proof. unfold unmarshal_into. apply finish_ok. Qed.
  Lemma blank_kept l o : blank (JObj l) -> (exists os, o = OObj os) -> kept (JObj l) (erase o).
  Proof. intros B (os & ->). inversion B; subst. cbn [erase]. apply kept_obj. intros k j Hi. left. eauto. Qed.
  Lemma struct_obj esc fs vs es o : enc_struct esc fs vs es = Ok o -> exists os, o = OObj os.
  Proof. unfold enc_struct. intros E. apply bind_ok in E as (os & _ & E). injection E as <-. exists os. reflexivity. Qed.
  Lemma scanned_ok r o : scanned r = Ok o -> r = Ok o.
  Proof. unfold scanned. intros E. apply bind_ok in E as (x & -> & E). destruct (too_deep (erase x)); [discriminate|]. injection E as ->. reflexivity. Qed.
  Lemma str_kept t x : kind_of t = KStr -> doc_utf8 (JStr x) -> kept_in (JStr x) t (VStr x).
  Proof.
    intros K U. split; [|split; cbn [empty_value zero_value]; intros Z; apply String.eqb_eq in Z; subst; constructor].
    intros esc o E. cbn [jenc] in E. injection E as <-. cbn [erase]. rewrite (to_utf8_valid x U). constructor.
  Qed.
  Lemma text_fine s0 x : s0 = Text \/ s0 = Filled \/ (exists ws, s0 = Words ws /\ In x ws) -> fine s0 (JStr x).
  Proof.
    intros S. apply fine_base; [reflexivity|]. intros t nl B E I W U Q. destruct (unmarshal_hook t) eqn:H;
      try (exfalso; destruct S as [->|[->|(ws & -> & _)]]; cbn [holds] in E; rewrite B, H in E; discriminate).
    - assert (K : kind_of t = KStr) by (destruct S as [->|[->|(ws & -> & _)]]; cbn [holds] in E; rewrite B, H in E; destruct (kind_of t); try discriminate; reflexivity).
      apply plain_keep; [exact B|exact H|]. intros v P. unfold plain in P. rewrite K in P. injection P as <-. exact (str_kept t x K U).
    - destruct (hook_keep (JStr x) t B) as [->|(h & fs & T & L & Uh & K & Fs & Je & D)]; [rewrite H; discriminate|discriminate|]. rewrite H in Uh. subst h. inversion T; subst. apply D. clear D.
      intros v E'. vm_compute in E'. injection E' as <-. split; [|split].
      + intros esc o Eo. rewrite Je in Eo. apply scanned_ok in Eo. cbn [marshal encs] in Eo. change (nonempty (VStr x)) with (negb (String.eqb x "")) in Eo.
        destruct (String.eqb_spec x "") as [->|N]; cbn [negb] in Eo; [injection Eo as <-; constructor|]. injection Eo as <-. cbn [erase]. rewrite (to_utf8_valid x U). constructor.
      + discriminate.
      + cbn. intros Z. rewrite andb_true_r in Z. apply String.eqb_eq in Z. subst. constructor.
    - destruct (hook_keep (JStr x) t B) as [->|(h & fs & T & L & Uh & K & Fs & Je & D)]; [rewrite H; discriminate| |rewrite H in Uh; subst h; inversion T].
      destruct S as [->|[->|(ws & -> & Hw)]]; [discriminate|discriminate|]. cbn [holds base] in E. change (unmarshal_hook (TRef "SpecVersion")) with HSpecVersion in E. cbv iota in E.
      destruct (forallb _ ws) eqn:P; [|discriminate]. rewrite forallb_forall in P. specialize (P x Hw). destruct (parse_spec_version x) as [z|] eqn:Pl; [|discriminate]. apply andb_prop in P as (Z0 & P).
      intros v Ev. rewrite jdec_eq in Ev. change (node (shape_of (JStr x)) (TRef "SpecVersion") (zero_of (TRef "SpecVersion"))) with (match parse_spec_version x with Some z => DVal (VInt z) None | None => DAbort EInvalidSpecVersion end) in Ev. rewrite Pl in Ev.
      injection Ev as <-. apply negb_true_iff in Z0. split; [|split; cbn [empty_value zero_value]; rewrite Z0; discriminate].
      intros esc o Eo. change (jenc esc (TRef "SpecVersion") (VInt z)) with (Ok (E := jerr) (OStr true (SpecVersion_String z))) in Eo. injection Eo as <-. cbn [erase]. apply String.eqb_eq in P. rewrite P, (to_utf8_valid x U). constructor.
    - destruct (hook_keep (JStr x) t B) as [->|(h & fs & T & L & Uh & K & Fs & Je & D)]; [rewrite H; discriminate|discriminate|]. rewrite H in Uh. subst h. apply D. clear D.
      intros v E'. assert (V : exists rest, v = VStruct (VStr x :: rest) /\ VStr "" :: rest = zeros_of fs) by (inversion T; subst; vm_compute in E'; injection E' as <-; eexists; split; reflexivity).
      destruct V as (rest & -> & Zr). split; [|split; [discriminate|]].
      + intros esc o Eo. rewrite Je in Eo. apply scanned_ok in Eo. destruct (String.eqb_spec x "") as [->|N].
        * rewrite Zr in Eo. inversion T; subst; vm_compute in Eo; injection Eo as <-; constructor.
        * assert (Eo' : Ok (E := jerr) (OStr true x) = Ok o).
          { rewrite <- Eo. inversion T; subst; cbn [marshal encs fields_IKEv2Auth fields_IKEv2Enc fields_IKEv2Integ fields_IKEv2Ke fields_IKEv2Prf]; unfold nonempty; cbn [str_of]; rewrite (proj2 (String.eqb_neq _ _) N); reflexivity. }
          injection Eo' as <-. cbn [erase]. rewrite (to_utf8_valid x U). constructor.
      + cbn [zero_value forallb]. intros Z. apply andb_prop in Z as (Z & _). apply String.eqb_eq in Z. subst. constructor.
  Qed.
  Lemma scalar_kind s0 t nl : base t = t -> holds s0 t = Some nl -> s0 = Whole \/ s0 = Number \/ s0 = Truth -> unmarshal_hook t = HNone /\ kind_of t = match s0 with Whole => KInt | Number => KFlt | _ => KBool end.
  Proof.
    intros B E S. destruct S as [->|[->| ->]]; cbn [holds] in E; rewrite B in E; destruct (unmarshal_hook t); try discriminate E; (split; [reflexivity|]); destruct (kind_of t); try discriminate E; reflexivity.
  Qed.
  Lemma whole_fine z : is_int z = true -> fine Whole (JNum (format_int z)).
  Proof.
    intros Z. apply fine_base; [reflexivity|]. intros t nl B E I W U Q. destruct (scalar_kind _ _ _ B E (or_introl eq_refl)) as (H & K). apply plain_keep; [exact B|exact H|].
    intros v P. unfold plain in P. rewrite K in P. cbn [shape_of] in P. rewrite (atoi_format z Z) in P. injection P as <-.
    split; [|split; cbn [empty_value zero_value]; intros Y; apply Z.eqb_eq in Y; subst; eapply (bl_num false); vm_compute; reflexivity].
    intros esc o Eo. assert (o = ONum (format_int z)) as ->. { cbn [jenc] in Eo. unfold unmarshal_hook in H. destruct (marshal_hook t); try discriminate H; injection Eo as <-; reflexivity. } constructor.
  Qed.
  Lemma number_fine lit : fine Number (JNum lit).
  Proof.
    apply fine_base; [reflexivity|]. intros t nl B E I W U Q. destruct (scalar_kind _ _ _ B E (or_intror (or_introl eq_refl))) as (H & K). apply plain_keep; [exact B|exact H|].
    intros v P. unfold plain in P. rewrite K in P. cbn [shape_of] in P. set (b := match t with TF32 => true | _ => false end) in P. destruct (parse_float b lit) as [f|] eqn:Pf; [|discriminate]. injection P as <-.
    split; [|split; cbn [empty_value zero_value]; intros Y; exact (bl_num b lit f Pf Y)].
    intros esc o Eo. destruct f as [neg m e| |]; cbn [jenc] in Eo; try discriminate. injection Eo as <-. cbn [erase]. apply (kept_num b _ _ _ Pf). apply parse_json_float, (parse_float_ok _ _ _ Pf).
  Qed.
  Lemma truth_fine b : fine Truth (JBool b).
  Proof.
    apply fine_base; [reflexivity|]. intros t nl B E I W U Q. destruct (scalar_kind _ _ _ B E (or_intror (or_intror eq_refl))) as (H & K). apply plain_keep; [exact B|exact H|].
    intros v P. unfold plain in P. rewrite K in P. injection P as <-. split; [|split; cbn [empty_value zero_value]; destruct b; try discriminate; constructor].
    intros esc o Eo. cbn [jenc] in Eo. injection Eo as <-. constructor.
  Qed.
  Lemma elements_kept s0 t nl : holds s0 t = Some nl -> incl nl R -> wk t = true -> forall l vs, (forall j, In j l -> fine s0 j) -> doc_utf8 (JArr l) -> doc_unique (JArr l) ->
    dec_elements (map jdec l) t [] = inl (vs, None) -> length vs = length l /\ forall esc os, enc_elements esc t vs = Ok os -> Forall2 kept l (map erase os).
  Proof.
    intros H I W. induction l as [|j l IH]; intros vs G U Q D; cbn [map dec_elements hd tl] in D; [injection D as <-; split; [reflexivity|]; intros esc os E; injection E as <-; constructor|].
    destruct (jdec j t (zero_of t)) as [v err|] eqn:Dj; [|discriminate]. destruct (dec_elements (map jdec l) t []) as [[vs' err']|] eqn:D'; [|discriminate]. destruct err; [discriminate|]. injection D as <- ->.
    destruct U as (Uj & U). destruct Q as (Qj & Q). destruct (IH vs' (fun j Hj => G j (or_intror Hj)) U Q eq_refl) as (L & IH').
    split; [cbn [length]; congruence|]. intros esc os E. cbn [enc_elements] in E. apply bind_ok in E as (o & Eo & E). apply bind_ok in E as (os' & Eos & E). injection E as <-. cbn [map]. constructor; [|exact (IH' esc os' Eos)].
    destruct (G j (or_introl eq_refl) t nl H I W Uj Qj v Dj) as (K & _). exact (K esc o Eo).
  Qed.
  Lemma list_kept s0 t nl l v esc : holds s0 t = Some nl -> incl nl R -> wk t = true -> (forall j, In j l -> fine s0 j) -> doc_utf8 (JArr l) -> doc_unique (JArr l) ->
    plain (SArr (map jdec l)) (TSlice t) (VSlice None) = DVal v None -> exists vs, v = VSlice (Some vs) /\ forall o, jenc esc (TPtr (TSlice t)) (some_ptr v) = Ok o -> kept (JArr l) (erase o).
  Proof.
    intros H I W G U Q P. unfold plain in P. cbn in P. destruct (dec_elements (map jdec l) t []) as [[vs err]|] eqn:D; [|discriminate]. injection P as <- ->.
    destruct (elements_kept s0 t nl H I W l vs G U Q D) as (_ & K). exists vs. split; [reflexivity|]. intros o E. change (jenc esc (TSlice t) (VSlice (Some vs)) = Ok o) in E. rewrite jenc_slice in E.
    apply bind_ok in E as (os & E & Eo). injection Eo as <-. cbn [erase]. apply kept_arr. exact (K esc os E).
  Qed.
  Lemma list_fine s0 l : (forall j, In j l -> fine s0 j) -> fine (ListOf s0) (JArr l).
  Proof.
    intros G. apply fine_base; [reflexivity|]. intros t nl B E I W U Q. cbn [holds] in E. rewrite B in E. destruct (unmarshal_hook t) eqn:H; try discriminate E.
    - destruct (kind_of t) as [| | | | |t'| |] eqn:K; try discriminate E. apply plain_keep; [exact B|exact H|]. intros v P. unfold plain in P. rewrite K in P. cbn [shape_of] in P.
      assert (Z : list_of_slice (zero_of t) = []) by (unfold zero_of; cbn [zero_n]; rewrite K; reflexivity).
      rewrite Z in P. destruct (dec_elements (map jdec l) t' []) as [[vs err]|] eqn:D; [|discriminate]. injection P as <- ->.
      destruct (elements_kept s0 t' nl E I (wk_slice _ _ W K) l vs G U Q D) as (L & Kp). split; [|split; [|discriminate]].
      + intros esc o Eo. rewrite jenc_slice in Eo. apply bind_ok in Eo as (os & Eo & E'). injection E' as <-. cbn [erase]. apply kept_arr. unfold elem_ty in Eo. rewrite K in Eo. exact (Kp esc os Eo).
      + cbn [empty_value]. destruct vs; [|discriminate]. destruct l; [constructor|discriminate L].
    - destruct (hook_keep (JArr l) t B) as [->|(h & fs & T & L & Uh & K & Fs & Je & D)]; [rewrite H; discriminate|discriminate|]. rewrite H in Uh. subst h. inversion T; subst. apply D. clear D. intros v E'.
      cbn [unmarshal shape_of] in E'. change (unmarshal_into (SArr (map jdec l)) (TRef "toolsChoiceJSON")) with (Err (A := val) (EType "array")) in E'. cbv iota beta in E'.
      apply bind_ok in E' as (w & Ew & E'). injection E' as <-. apply unmarshal_plain in Ew. change (zero_of (TSlice (TRef "Tool"))) with (VSlice None) in Ew.
      destruct (list_kept s0 _ nl l w true E I eq_refl G U Q Ew) as (vs & -> & Kp). split; [|split; discriminate].
      intros esc o Eo. rewrite Je in Eo. apply scanned_ok in Eo. apply Kp. exact Eo.
    - destruct (hook_keep (JArr l) t B) as [->|(h & fs & T & L & Uh & K & Fs & Je & D)]; [rewrite H; discriminate|discriminate|]. rewrite H in Uh. subst h. inversion T; subst. apply D. clear D. intros v E'.
      change (unmarshal HIdentity (shape_of (JArr l)) (TRef "EvidenceIdentityChoice") (zeros_of fields_EvidenceIdentityChoice)) with
        (bind (unmarshal_into (SArr (map jdec l)) (TSlice (TRef "EvidenceIdentity"))) (fun l => Ok (VStruct [VPtr None; some_ptr l]))) in E'.
      apply bind_ok in E' as (w & Ew & E'). injection E' as <-. apply unmarshal_plain in Ew. change (zero_of (TSlice (TRef "EvidenceIdentity"))) with (VSlice None) in Ew.
      destruct (list_kept s0 _ nl l w true E I eq_refl G U Q Ew) as (vs & -> & Kp). split; [|split; discriminate].
      intros esc o Eo. rewrite Je in Eo. apply scanned_ok in Eo. apply Kp. exact Eo.
  Qed.
  Lemma peek_absent ms l go key x : parts ms l -> nowhere (peek_field go key) ms = true -> peek (SObj (as_members l)) go key = Ok x -> x = "".
  Proof.
    intros (Ks & _) N. assert (D : dec_members (as_members l) (peek_field go key) [VStr ""] = inl ([VStr ""], None)).
    { unfold nowhere in N. rewrite forallb_forall in N. clear -Ks N. induction l as [|[k j] l IH]; [reflexivity|]. cbn [as_members map dec_members fst snd].
      assert (Hk : In k (map fst ms)) by (eapply Ks; left; reflexivity). apply in_map_iff in Hk as ((k' & s') & <- & Hk). specialize (N _ Hk). cbn [fst] in N |- *. destruct (find_field (peek_field go key) k'); [discriminate|].
      apply IH. intros k j' Hj. eapply Ks. right. exact Hj. }
    unfold peek. cbn [dec_struct]. rewrite D. intros [= <-]. reflexivity.
  Qed.
  Lemma absent_members ms l fs cur : parts ms l -> nowhere fs ms = true -> dec_members (as_members l) fs cur = inl (cur, None).
  Proof.
    intros (Ks & _) N. unfold nowhere in N. rewrite forallb_forall in N. clear -Ks N. induction l as [|[k j] l IH]; [reflexivity|]. cbn [as_members map dec_members fst snd].
    assert (Hk : In k (map fst ms)) by (eapply Ks; left; reflexivity). apply in_map_iff in Hk as ((k' & s') & <- & Hk). specialize (N _ Hk). cbn [fst] in N |- *. destruct (find_field fs k'); [discriminate|].
    apply IH. intros k j' Hj. eapply Ks. right. exact Hj.
  Qed.
  Lemma peek_there ms l go key s req x : parts ms l -> (forall k, In k req -> In k (map fst l)) -> assoc key ms = Some s -> filled_schema s = true -> existsb (String.eqb key) req = true -> doc_unique (JObj l) ->
    (exists om, json_info (mkField go TStr ("json:""" ++ key ++ """") false) = Some (key, om)) -> peek (SObj (as_members l)) go key = Ok x -> x <> "".
  Proof.
    intros (_ & C & _) Rq A F Hr (ND & _) (om & J) P. apply existsb_exists in Hr as (k & Hr & Q). apply String.eqb_eq in Q. subst k. specialize (Rq _ Hr). apply in_map_iff in Rq as ((k & j) & Ek & Hj). cbn [fst] in Ek. subst k.
    unfold peek in P. cbn [dec_struct] in P. destruct (dec_members (as_members l) (peek_field go key) [VStr ""]) as [[vs err]|] eqn:D; [|discriminate].
    destruct err as [e|]; [destruct vs as [|[] [|]]; discriminate|].
    assert (NO : names_ok (peek_field go key)).
    { intros i i' f g n o m p Nf Ng _ _ _. destruct i as [|[|]]; try discriminate Nf. destruct i' as [|[|]]; try discriminate Ng. reflexivity. }
    destruct (decoded_fields l (peek_field go key) vs ND NO D) as (_ & Fd & _). destruct (Fd key j 0 _ om Hj eq_refl J) as (v & Nv & Dv). destruct vs as [|w [|? ?]]; [discriminate P| |destruct w; discriminate P]. injection Nv as ->.
    assert (Cj := C key j s Hj A). cbn [f_ty] in Dv. destruct s; try discriminate F; inversion Cj; subst; cbn in Dv; injection Dv as <-; injection P as <-; [assumption|].
    cbn [filled_schema] in F. rewrite forallb_forall in F. match goal with H : In _ _ |- _ => specialize (F _ H) end. intros ->. discriminate F.
  Qed.
  Lemma typed_fields l fs vs err : wks fs -> wts (zeros_of fs) fs -> dec_members (as_members l) fs (zeros_of fs) = inl (vs, err) -> wts vs fs.
  Proof.
    intros W Z D. refine (members_keep (as_members l) _ fs (zeros_of fs) vs err W Z D).
    apply Forall_forall. intros m Hm. unfold as_members in Hm. apply in_map_iff in Hm as (x & <- & _). apply jdec_typed.
  Qed.
  Lemma property_error l p e : plain (SObj (as_members l)) (TRef "Property") (zero_of (TRef "Property")) = DVal p (Some e) -> e <> EType "string".
  Proof.
    unfold plain. change (kind_of (TRef "Property")) with (KStruct fields_Property). cbn [dec_struct]. generalize (fields_of_val (zero_of (TRef "Property"))). intros cur E.
    destruct (dec_members (as_members l) fields_Property cur) as [[vs err]|] eqn:D; [|discriminate]. injection E as <- ->.
    assert (G : forall l cur vs err, dec_members (as_members l) fields_Property cur = inl (vs, err) -> err <> Some (EType "string")).
    { clear. induction l as [|[k j] l IH]; intros cur vs err D; [injection D as _ <-; discriminate|]. cbn [as_members map dec_members fst snd] in D. destruct (find_field fields_Property k) as [i|]; [|exact (IH _ _ _ D)].
      destruct (nth_error fields_Property i) as [f|] eqn:Nf; [|exact (IH _ _ _ D)]. destruct (nth_error cur i) as [c|]; [|exact (IH _ _ _ D)].
      assert (Tf : f_ty f = TStr) by (destruct i as [|[|[|]]]; [injection Nf as <-; reflexivity|injection Nf as <-; reflexivity|discriminate|discriminate]). rewrite Tf in D. cbn [m_dec] in D.
      assert (Je : forall v e, jdec j TStr c = DVal v e -> e <> Some (EType "string")) by (intros v e; destruct j; cbn; intros [= <- <-]; discriminate).
      destruct (jdec j TStr c) as [v e|]; [|discriminate]. specialize (Je _ _ eq_refl). fold (as_members l) in D. destruct (dec_members (as_members l) fields_Property (set_nth i v cur)) as [[c' e']|] eqn:D'; [|discriminate]. injection D as _ <-.
      specialize (IH _ _ _ D'). destruct e; assumption. }
    intros ->. exact (G _ _ _ _ D eq_refl).
  Qed.
  Lemma tools_error l e v : match @Err jerr val e with Ok (VStruct [comps; servs]) => Ok (if (nonnil comps || nonnil servs)%bool then VStruct [VPtr None; comps; servs] else VStruct [VPtr None; VPtr None; VPtr None]) | Ok _ => Err ESyntax
    | Err (EType "array") => bind (unmarshal_into (SObj (as_members l)) (TSlice (TRef "Tool"))) (fun l => Ok (VStruct [some_ptr l; VPtr None; VPtr None])) | Err e => Err e end = Ok v -> False.
  Proof.
    change (unmarshal_into (SObj (as_members l)) (TSlice (TRef "Tool"))) with (@Err jerr val (EType "object")). cbn [bind]. destruct e as [| | | | | |w|]; try discriminate.
    repeat (destruct w as [|[[] [] [] [] [] [] [] []] w]; try discriminate).
  Qed.
  (** One of two structs *)
  Lemma choose_kept ms l go key first second req nl x : parts ms l -> (forall k, In k req -> In k (map fst l)) -> choose holds go key first second ms req = Some nl -> incl nl R -> doc_utf8 (JObj l) -> doc_unique (JObj l) ->
    (exists om, json_info (mkField go TStr ("json:""" ++ key ++ """") false) = Some (key, om)) -> (exists fs, kind_of first = KStruct fs) -> (exists fs, kind_of second = KStruct fs) -> marshal_hook first = HNone -> marshal_hook second = HNone ->
    peek (SObj (as_members l)) go key = Ok x -> forall v, unmarshal_into (SObj (as_members l)) (if negb (String.eqb x "") then first else second) = Ok v ->
    forall o, jenc true (if negb (String.eqb x "") then first else second) v = Ok o -> kept (JObj l) (erase o).
  Proof.
    intros P Rq H I U Q J (fs1 & K1) (fs2 & K2) M1 M2 Pk v Ev o Eo. unfold choose in H. apply unmarshal_plain in Ev. destruct (assoc key ms) as [s|] eqn:A.
    - destruct (filled_schema s && existsb (String.eqb key) req)%bool eqn:F; [|discriminate]. apply andb_prop in F as (F & Hr). pose proof (peek_there ms l go key s req x P Rq A F Hr Q J Pk) as N.
      rewrite (proj2 (String.eqb_neq _ _) N) in Ev, Eo. cbn [negb] in Ev, Eo. unfold fields_of in H. rewrite K1 in H. destruct (into_kept ms l first fs1 nl v P K1 H I U Q Ev) as (vs & -> & _ & Kp & _).
      rewrite jenc_struct, M1 in Eo. unfold fields_of in Eo. rewrite K1 in Eo. exact (Kp true o Eo).
    - destruct (nowhere (peek_field go key) ms) eqn:N; [|discriminate]. rewrite (peek_absent ms l go key x P N Pk) in Ev, Eo. cbn [String.eqb negb] in Ev, Eo. unfold fields_of in H. rewrite K2 in H.
      destruct (into_kept ms l second fs2 nl v P K2 H I U Q Ev) as (vs & -> & _ & Kp & _). rewrite jenc_struct, M2 in Eo. unfold fields_of in Eo. rewrite K2 in Eo. exact (Kp true o Eo).
  Qed.
  Ltac hook_case j t B H D K T L Fs Je :=
    destruct (hook_keep j t B) as [->|(h & fs & T & L & Uh & K & Fs & Je & D)]; [rewrite H; discriminate|discriminate|]; rewrite H in Uh; subst h.
  Lemma object_fine ms required l : parts ms l -> (forall k, In k required -> In k (map fst l)) -> fine (Object ms required) (JObj l).
  Proof.
    intros P Rq. apply fine_base; [reflexivity|]. intros t nl B E I W U Q. cbn [holds] in E. rewrite B in E. destruct (unmarshal_hook t) eqn:H; try discriminate E.
    - destruct (kind_of t) as [| | | | | |fs|] eqn:K; try discriminate E. apply plain_keep; [exact B|exact H|]. intros v Ev. cbn [shape_of] in Ev. fold (as_members l) in Ev.
      destruct (into_kept ms l t fs nl v P K E I U Q Ev) as (vs & -> & _ & Kp & Z). split; [|split; [discriminate|exact Z]].
      intros esc o Eo. rewrite jenc_struct in Eo. assert (Fs : fields_of t = fs) by (unfold fields_of; rewrite K; reflexivity). unfold unmarshal_hook in H. destruct (marshal_hook t) eqn:Mh; try discriminate H.
      + rewrite Fs in Eo. exact (Kp esc o Eo).
      + apply scanned_ok in Eo. apply (license_ok t vs o Mh) in Eo. rewrite Fs in Eo. exact (Kp true o Eo).
    - hook_case (JObj l) t B H D K T L Fs Je. inversion T; subst. apply D. clear D. intros v Ev. cbn [shape_of] in Ev. fold (as_members l) in Ev.
      change (zeros_of fields_EnvironmentVariableChoice) with [VPtr None; VStr ""] in Ev. cbn [unmarshal] in Ev.
      destruct (plain (SObj (as_members l)) (TRef "Property") (zero_of (TRef "Property"))) as [p err|e] eqn:Ep; [|discriminate].
      assert (Er : err = None). { destruct err as [e|]; [|reflexivity]. exfalso. apply (property_error l p e Ep). destruct e as [| | | | | |s|]; try discriminate Ev. destruct (string_dec s "string") as [->|Ns]; [reflexivity|]. exfalso. clear -Ev Ns. repeat (destruct s as [|[[] [] [] [] [] [] [] []] s]; try discriminate Ev). apply Ns; reflexivity. }
      subst err. destruct (into_kept ms l (TRef "Property") _ nl p P eq_refl E I U Q Ep) as (vs & -> & _ & Kp & Z).
      destruct (zero_value (VStruct vs)) eqn:Zv; cbn [negb] in Ev.
      + assert (v = VStruct [VPtr None; VStr ""]) as ->. { unfold plain in Ev. cbn in Ev. injection Ev as <-. reflexivity. }
        split; [|split; [discriminate|intros _; exact (Z eq_refl)]]. intros esc o Eo. rewrite Je in Eo. apply scanned_ok in Eo. injection Eo as <-. apply blank_kept; [exact (Z eq_refl)|eexists; reflexivity].
      + injection Ev as <-. split; [|split; discriminate]. intros esc o Eo. rewrite Je in Eo. apply scanned_ok in Eo. cbn [marshal encs some_ptr] in Eo. rewrite Zv in Eo. cbn [negb] in Eo. apply (Kp true o). exact Eo.
    - hook_case (JObj l) t B H D K T L Fs Je. inversion T; subst. apply D. clear D. intros v Ev. cbn [shape_of] in Ev. fold (as_members l) in Ev.
      change (zeros_of fields_MLDatasetChoice) with [VStr ""; VPtr None] in Ev. cbn [unmarshal] in Ev. apply bind_ok in Ev as (r & Er & Ev). apply unmarshal_plain in Er.
      destruct (nowhere fields_mlDatasetChoiceRefJSON ms) eqn:N.
      + assert (r = VStruct [VStr ""]) as ->.
        { unfold plain in Er. change (kind_of (TRef "mlDatasetChoiceRefJSON")) with (KStruct fields_mlDatasetChoiceRefJSON) in Er. cbn [dec_struct] in Er. rewrite (absent_members ms l _ _ P N) in Er. injection Er as <-. reflexivity. }
        cbn [String.eqb negb] in Ev. apply bind_ok in Ev as (w & Ew & Ev). injection Ev as <-. apply unmarshal_plain in Ew. destruct (into_kept ms l (TRef "ComponentData") _ nl w P eq_refl E I U Q Ew) as (vs & -> & _ & Kp & Z).
        destruct (zero_value (VStruct vs)) eqn:Zv.
        * split; [|split; [discriminate|intros _; exact (Z eq_refl)]]. intros esc o Eo. rewrite Je in Eo. apply scanned_ok in Eo. injection Eo as <-. apply blank_kept; [exact (Z eq_refl)|eexists; reflexivity].
        * split; [|split; discriminate]. intros esc o Eo. rewrite Je in Eo. apply scanned_ok in Eo. apply (Kp true o). exact Eo.
      + destruct (into_kept ms l (TRef "mlDatasetChoiceRefJSON") _ nl r P eq_refl E I U Q Er) as (vs & -> & _ & Kp & Z). destruct vs as [|[x| | | | | |] [|? ?]]; try discriminate Ev.
        destruct (String.eqb x "") eqn:Nx; [apply String.eqb_eq in Nx; subst x|apply String.eqb_neq in Nx]; cbn [negb] in Ev.
        * apply bind_ok in Ev as (w & Ew & Ev). injection Ev as <-. specialize (Z eq_refl). split; [|split; [discriminate|intros _; exact Z]]. intros esc o Eo. rewrite Je in Eo. apply scanned_ok in Eo. apply blank_kept; [exact Z|].
          destruct (zero_value w); [injection Eo as <-; eexists; reflexivity|]. cbn [marshal encs fields_MLDatasetChoice nonempty str_of String.eqb negb nonnil some_ptr] in Eo.
          apply unmarshal_plain in Ew. unfold plain in Ew. change (kind_of (TRef "ComponentData")) with (KStruct fields_ComponentData) in Ew. cbv beta iota in Ew. match type of Ew with match ?x with _ => _ end = _ => destruct x as [[ws err]|] end; [|discriminate]. injection Ew as <- _.
          apply (struct_obj true fields_ComponentData ws (encs ws fields_ComponentData) o). exact Eo.
        * injection Ev as <-. split; [|split; [discriminate|]].
          -- intros esc o Eo. rewrite Je in Eo. apply scanned_ok in Eo. cbn [marshal encs fields_MLDatasetChoice] in Eo. unfold nonempty in Eo. cbn [str_of] in Eo. rewrite (proj2 (String.eqb_neq _ _) Nx) in Eo. cbn [negb] in Eo. apply (Kp true o). exact Eo.
          -- cbn. rewrite (proj2 (String.eqb_neq _ _) Nx). discriminate.
    - hook_case (JObj l) t B H D K T L Fs Je. inversion T; subst. apply D. clear D. intros v Ev. cbn [shape_of] in Ev. fold (as_members l) in Ev.
      change (zeros_of fields_ToolsChoice) with [VPtr None; VPtr None; VPtr None] in Ev. cbn [unmarshal] in Ev.
      destruct (unmarshal_into (SObj (as_members l)) (TRef "toolsChoiceJSON")) as [w|e] eqn:Ew; [|exfalso; exact (tools_error l e _ Ev)].
      apply unmarshal_plain in Ew. pose proof (wt_zero (TRef "toolsChoiceJSON")) as Wz. destruct (into_kept ms l (TRef "toolsChoiceJSON") _ nl w P eq_refl E I U Q Ew) as (vs & -> & Dv & Kp & Z).
      destruct vs as [|a [|b [|? ?]]]; try discriminate Ev. injection Ev as <-. set (vs' := [a; b]) in Dv. destruct (nonnil a || nonnil b)%bool eqn:Nn.
      + split; [|split; [discriminate|]].
        * intros esc o Eo. rewrite Je in Eo. apply scanned_ok in Eo. cbn [marshal encs fields_ToolsChoice] in Eo. change (nonnil (VPtr None)) with false in Eo. cbn [andb] in Eo. rewrite Nn in Eo. apply (Kp true o). exact Eo.
        * cbn [zero_value forallb andb]. intros Zv. exfalso. destruct a as [| | | |[a|]| |], b as [| | | |[b|]| |]; try discriminate Zv; try discriminate Nn; cbn in Zv; rewrite ?andb_false_r in Zv; discriminate Zv.
      + split; [|split; [discriminate|]].
        * intros esc o Eo. rewrite Je in Eo. apply scanned_ok in Eo. discriminate Eo.
        * intros _. apply Z. pose proof (typed_fields l _ vs' None (wk_struct (TRef "toolsChoiceJSON") _ eq_refl) (conj Logic.I (conj Logic.I Logic.I)) Dv) as Wv. destruct Wv as (Wa & Wb & _). apply orb_false_elim in Nn as (Na & Nb). destruct a as [| | | |[a|]| |]; try (discriminate Wa); try (exfalso; exact Wa); [discriminate Na|]. destruct b as [| | | |[b|]| |]; try (discriminate Wb); try (exfalso; exact Wb); [discriminate Nb|]. reflexivity.
    - hook_case (JObj l) t B H D K T L Fs Je. inversion T; subst. apply D. clear D. intros v Ev. cbn [shape_of] in Ev. fold (as_members l) in Ev.
      change (zeros_of fields_EvidenceIdentityChoice) with [VPtr None; VPtr None] in Ev. cbn [unmarshal] in Ev. apply bind_ok in Ev as (w & Ew & Ev). injection Ev as <-. apply unmarshal_plain in Ew.
      destruct (into_kept ms l (TRef "EvidenceIdentity") _ nl w P eq_refl E I U Q Ew) as (vs & -> & _ & Kp & _). split; [|split; discriminate]. intros esc o Eo. rewrite Je in Eo. apply scanned_ok in Eo. apply (Kp true o). exact Eo.
    - hook_case (JObj l) t B H D K T L Fs Je. inversion T; subst. apply D. clear D. intros v Ev. cbn [shape_of] in Ev. fold (as_members l) in Ev.
      change (zeros_of fields_CertificateState) with [VPtr None; VPtr None] in Ev. cbn [unmarshal] in Ev. apply bind_ok in Ev as (x & Ex & Ev).
      pose proof (choose_kept ms l _ _ _ _ required nl x P Rq E I U Q (ex_intro _ _ eq_refl) (ex_intro _ _ eq_refl) (ex_intro _ _ eq_refl) eq_refl eq_refl Ex) as Kp.
      destruct (negb (String.eqb x "")); apply bind_ok in Ev as (w & Ew & Ev); injection Ev as <-; (split; [|split; [discriminate|cbn; rewrite ?andb_false_r; discriminate]]); intros esc o Eo; rewrite Je in Eo; apply scanned_ok in Eo; exact (Kp w Ew o Eo).
    - hook_case (JObj l) t B H D K T L Fs Je. inversion T; subst. apply D. clear D. intros v Ev. cbn [shape_of] in Ev. fold (as_members l) in Ev.
      change (zeros_of fields_CertificateExtension) with [VPtr None; VPtr None] in Ev. cbn [unmarshal] in Ev. apply bind_ok in Ev as (x & Ex & Ev).
      pose proof (choose_kept ms l _ _ _ _ required nl x P Rq E I U Q (ex_intro _ _ eq_refl) (ex_intro _ _ eq_refl) (ex_intro _ _ eq_refl) eq_refl eq_refl Ex) as Kp.
      destruct (negb (String.eqb x "")); apply bind_ok in Ev as (w & Ew & Ev); injection Ev as <-; (split; [|split; [discriminate|cbn; rewrite ?andb_false_r; discriminate]]); intros esc o Eo; rewrite Je in Eo; apply scanned_ok in Eo; exact (Kp w Ew o Eo).
    - hook_case (JObj l) t B H D K T L Fs Je. rewrite Fs in E. apply D. clear D. intros v Ev. cbn [shape_of] in Ev. fold (as_members l) in Ev.
      assert (Ep : plain (SObj (as_members l)) t (zero_of t) = DVal v None).
      { rewrite (zero_struct _ _ K). apply finish_ok. rewrite <- Ev. inversion T; subst; reflexivity. }
      destruct (into_kept ms l t fs nl v P K E I U Q Ep) as (vs & -> & Dv & Kp & Z). split; [|split; [discriminate|exact Z]].
      intros esc o Eo. rewrite Je in Eo. apply scanned_ok in Eo. destruct (decoded_fields l fs vs (proj1 Q) (struct_names _ _ K) Dv) as (_ & _ & Un).
      assert (R0 : nth_error vs 0 = Some (VStr "")) by (inversion T; subst; apply (Un 0 _ eq_refl); intros k j n om _ [=]).
      destruct vs as [|r vs]; [discriminate|]. injection R0 as ->. apply (Kp true o). rewrite <- Eo. inversion T; subst; reflexivity.
    - hook_case (JObj l) t B H D K T L Fs Je. inversion T; subst. apply D. clear D. intros v Ev. cbn [shape_of] in Ev. fold (as_members l) in Ev.
      change (zeros_of fields_PatentChoice) with [VPtr None; VPtr None] in Ev. cbn [unmarshal] in Ev. apply bind_ok in Ev as (x & Ex & Ev).
      pose proof (choose_kept ms l _ _ _ _ required nl x P Rq E I U Q (ex_intro _ _ eq_refl) (ex_intro _ _ eq_refl) (ex_intro _ _ eq_refl) eq_refl eq_refl Ex) as Kp.
      destruct (negb (String.eqb x "")); apply bind_ok in Ev as (w & Ew & Ev); injection Ev as <-; (split; [|split; [discriminate|cbn; rewrite ?andb_false_r; discriminate]]); intros esc o Eo; rewrite Je in Eo; apply scanned_ok in Eo; exact (Kp w Ew o Eo).
  Qed.
  Lemma one_held alts : forall s t nl, In s alts -> all_need (fun s' => holds s' t) alts = Some nl -> exists nl', holds s t = Some nl' /\ incl nl' nl.
  Proof.
    induction alts as [|a alts IH]; intros s t nl Hi E; [contradiction|]. cbn [all_need] in E. apply both_some in E as (x & y & E1 & E2 & ->). destruct Hi as [->|Hi].
    - exists x. split; [exact E1|apply incl_appl, incl_refl].
    - destruct (IH _ _ _ Hi E2) as (nl' & N & I). exists nl'. split; [exact N|apply incl_appr, I].
  Qed.
  Theorem conforming_kept s j : conforms d s j -> fine s j.
  Proof.
    induction 1 as [x|x Hx|ws x Hw|z Hz|lit Hl|b|s l _ IH|ms req l Ks Cs IH Rq|n s j A _ IH|alts s j Hi _ IH|j].
    - apply text_fine. left. reflexivity.
    - apply text_fine. right. left. reflexivity.
    - apply text_fine. right. right. exists ws. auto.
    - apply whole_fine, Hz.
    - apply number_fine.
    - apply truth_fine.
    - apply list_fine, IH.
    - apply object_fine; [|exact Rq]. split; [exact Ks|]. split; [exact Cs|exact IH].
    - intros t nl E I W. cbn [holds] in E. injection E as <-. assert (Q : In (n, base t) R) by (apply I; left; reflexivity).
      unfold keep_closed in HR. rewrite forallb_forall in HR. specialize (HR _ Q). cbn [fst snd] in HR. apply andb_prop in HR as (_ & C). rewrite A in C.
      destruct (holds s (base t)) as [nl|] eqn:N; [|discriminate]. rewrite <- holds_base in N. apply (IH t nl N); [|exact W]. intros q Hq. rewrite forallb_forall in C. apply pair_in_spec, C, Hq.
    - intros t nl E I W. cbn [holds] in E. destruct (one_held _ _ _ _ Hi E) as (nl' & N & I'). rewrite <- holds_base in N. apply (IH t nl' N); [|exact W]. intros q Hq. apply I, I', Hq.
    - intros t nl E. exfalso. cbn [holds] in E. destruct (unmarshal_hook (base t)); discriminate E.
  Qed.
End Keeps.

Lemma keeping_bom d j : keeping d = true -> conforms d (Ref "") j -> doc_utf8 j -> doc_unique j -> retained j (TRef "BOM").
Proof.
  unfold keeping. generalize (keep_reached d). intros R S C U Q. apply andb_prop in S as (S & P). apply pair_in_spec in P.
  apply (conforming_kept d R S (Ref "") j C (TRef "BOM") [("", TRef "BOM")]); [reflexivity| |reflexivity|exact U|exact Q]. intros q [<-|[]]. exact P.
Qed.
Theorem keeping_keeps d j c esc o : keeping d = true -> conforms d (Ref "") j -> doc_utf8 j -> doc_unique j -> bom_of_json j zero_BOM = Ok c -> json_encode esc c = Ok o -> kept j (erase o).
Proof.
  intros S C U Q B E. unfold bom_of_json in B. destruct (too_deep j); [discriminate|]. apply bind_ok in B as (v & V & B). injection B as <-. apply finish_ok in V. rewrite bom_zero in V.
  destruct (keeping_bom d j S C U Q v V) as (K & _). apply encode_writes in E as (E & _). pose proof (reify_reflect v (dec_fit j _ v U bom_wk V)) as F. rewrite bom_to_json_eq, F in E. exact (K esc o E).
Qed.
