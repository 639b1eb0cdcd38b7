(** The rest of convert.go on memory: components, services, tools, vulnerabilities and
    whole BOMs. Continues HeapProofs.v. *)
From Coq Require Import Lia.
From Verif Require Import Base Types Univ TypeTable Reify Consts Version ConvertModel ConvertSpec ConvertProofs GobModel HeapModel HeapLogic HeapFields HeapProofs.
Local Open Scope string_scope.
Local Open Scope prog_scope.
Local Open Scope list_scope.

Lemma does_alloc {T} t (R : T -> val) c y : flat c (R y) ->
  does t (vptr R) always (fun l => Alloc c (fun a => assign l (HPtr (Some a)))) (fun _ => Some y).
Proof.
  intros Hc h n a c0 p d x F [H1 H2 H3 H4 H5 H6 H7] _.
  assert (An : a <> (t, n)) by (intros ->; cbn in *; lia).
  do 4 eexists. split.
  - cbn. rewrite H1, Nat.eqb_refl, upd_other, H3, H4 by auto. reflexivity.
  - split.
    + lia.
    + apply upd_same.
    + cbn. eapply (rep_ptr _ (t, n)); [rewrite upd_other, upd_same by auto; reflexivity|apply Hc].
    + constructor; [intros []|constructor].
    + intros b [<-|[]]. right. split; cbn; auto; lia.
    + intros b N1 N2 N3. rewrite !upd_other; auto. intros ->. apply N3. split; cbn; auto; lia.
Qed.

Lemma reads_atP {T} t (R : T -> val) (E : loc -> prog bool) e dflt : reads t R always E e ->
  reads t (vptr R) present (fun l => at_ l E) (fun o => match o with Some y => e y | None => dflt end).
Proof. intros. eapply reads_weaken; [|apply reads_at; eauto]. intros o [y ->]. exists y. split; auto. exact I. Qed.

(** if x.F.G != nil { x.F.G... } with x.F known not to be nil *)
Lemma nestedP {T U} t (R : T -> val) i (R' : U -> val) get over P f : is_field R i (vptr R') get over -> does t R' always P f ->
  does t (vptr R) present (fun l => ifp (at_ l (fun m => is_set (fld m i))) (via l (fun m => via (fld m i) P))) (behind (over (behind f))).
Proof.
  intros Hf HP.
  eapply does_ext; [|eapply (does_ifp t (vptr R) present (fun o => exists m, o = Some m /\ exists u, get m = Some u /\ always u))].
  2: { eapply (reads_atP t R _ _ false). eapply (freadA t R i (vptr R') _ _ is_set); [exact Hf|apply reads_set]. }
  2: { eapply (does_via t R). eapply (does_field t R i (vptr R') get over Hf (fun o => exists u, o = Some u /\ always u) (fun q => via q P)).
       eapply (does_via t R'). exact HP. }
  - intros o [m ->]. destruct (Hf m) as (_ & L & _). unfold when_c. destruct (get m) as [u|] eqn:E; cbn; rewrite ?E; cbn; auto.
    f_equal. symmetry. apply L. auto.
  - intros o [m ->] H. exists m. split; auto. cbn in H. destruct (get m) as [u|]; [|discriminate]. exists u. split; auto. exact I.
Qed.
(** if x.F != nil && test(x.F.G) { x.F... } *)
Lemma bothP {T} t (R : T -> val) E e P f : reads t R always E e -> does t R always P f ->
  does t (vptr R) always (fun l => ifp (both (is_set l) (at_ l E)) (via l P)) (behind (when_c e f)).
Proof.
  intros HE HP. eapply does_ext; [|eapply (does_ifp t (vptr R) always present); [eapply reads_both with (D1 := present); [apply reads_set|eapply (reads_atP t R E e false HE)|]|apply viaP; exact HP|]].
  - intros [x|] _; [|reflexivity]. unfold when_c. cbn. destruct (e x); reflexivity.
  - intros [x|] _ H; [exists x; auto|discriminate].
  - intros [x|] _ H; [exists x; auto|discriminate].
Qed.
Section Domains.
  Variable t : nat.
  Context {T : Type} (R : T -> val).
  Lemma guardD P (f : T -> T) (D : T -> Prop) : does t (vptr R) (fun o => exists y, o = Some y /\ D y) P (behind f) ->
    does t (vptr R) (fun o => forall y, o = Some y -> D y) (fun l => guarded l P) (behind f).
  Proof.
    intros HP. unfold guarded. eapply does_ext; [|eapply does_ifp; [eapply reads_weaken; [|apply reads_set]|exact HP|]].
    - intros [x|] _; reflexivity.
    - intros; exact I.
    - intros [x|] H E; [exists x; auto|discriminate].
  Qed.
  Lemma seqD (D : T -> Prop) P Q f g :
    does t R D P f -> does t R D Q g -> (forall x, D x -> D (f x)) -> does t R D (fun l => P l;; Q l) (fun x => g (f x)).
  Proof. intros. eapply does_seq; eauto. Qed.
  Lemma seqPD (D D' : T -> Prop) P Q (f g : T -> T) :
    does t (vptr R) (fun o => exists y, o = Some y /\ D y) P (behind f) -> does t (vptr R) (fun o => exists y, o = Some y /\ D' y) Q (behind g) ->
    (forall x, D x -> D' (f x)) ->
    does t (vptr R) (fun o => exists y, o = Some y /\ D y) (fun l => P l;; Q l) (behind (fun x => g (f x))).
  Proof.
    intros H1 H2 H3. eapply does_ext; [|eapply does_seq; [exact H1|exact H2|]].
    - intros [x|]; reflexivity.
    - intros o (y & -> & Hy). exists (f y). split; auto.
  Qed.
End Domains.

(** Go to the field that a guarded block is about. *)
Ltac enter :=
  lazymatch goal with
  | |- does ?t ?R always (fun l => guarded (fld l ?i) ?P) _ => eapply (fieldA t R i (vptr _) _ _ (fun l => guarded l P)); [hfield|]
  end.

Section Converters.
  Variables (t : nat) (sv : SpecVersion).

  (** ** Evidence *)

  Definition several (o : ptr EvidenceIdentityChoice) : Prop := exists i ids, o = Some i /\ EvidenceIdentityChoice_Identities i = Some ids.
  Definition has_identities (i : EvidenceIdentityChoice) : bool := match EvidenceIdentityChoice_Identities i with Some _ => true | None => false end.
  Lemma identities_does : does t (vptr reify_EvidenceIdentityChoice) several
    (fun identity =>
       i <- deref identity;;
       ids <- deref (fld i (ix fields_EvidenceIdentityChoice "Identities"));;
       s <- elements ids;;
       match s with
       | Some (a, S _) =>
           Load (a, [0]) (fun first => Alloc first (fun f =>
             Alloc (HStruct [HPtr (Some f); nil_ptr]) (fun c => assign identity (HPtr (Some c)))))
       | _ => set_nil identity
       end) convertIdentityChoice_1_5.
  Proof.
    intros h n a c0 p c x F Hh (i & ids & -> & E). pose proof Hh as [H1 H2 H3 H4 H5 H6 [N O]].
    destruct i as [one ids']. cbn in E. subst ids'.
    inversion H5 as [| | | | |b d v G Hb HG| | |]; subst.
    inversion HG as [| | | | | | | |cs vs G0 HG0]; subst.
    inversion HG0 as [|d1 v1 G1 cs1 vs1 G2 HG1 HG2]; subst.
    inversion HG2 as [|d2 v2 G3 cs2 vs2 G4 HG3 HG4]; subst.
    inversion HG4; subst.
    inversion HG3 as [| | | | |b2 d3 v3 G5 Hb2 HG5| | |]; subst.
    destruct (O b) as [Ob1 Ob2]; [cbn; auto|].
    assert (In2 : In b2 (b :: G1 ++ (b2 :: G5) ++ [])) by (cbn; rewrite !in_app_iff; cbn; auto).
    destruct (O b2 In2) as [Oc1 Oc2].
    assert (L : forall {A} (k : hval -> prog A), run (fst a) (Load (a, p) k) h n = run (fst a) (k (HPtr (Some b))) h n).
    { intros A k. apply (run_load _ _ _ _ _ _ _ _ _ _ Hh). }
    assert (L2 : forall {A} (k : hval -> prog A), run (fst a) (Load (b, [1]) k) h n = run (fst a) (k (HPtr (Some b2))) h n).
    { intros A k. cbn. rewrite Ob1, Nat.eqb_refl, orb_true_r, Hb. reflexivity. }
    assert (L3 : forall {A} (k : hval -> prog A), run (fst a) (Load (b2, []) k) h n = run (fst a) (k d3) h n).
    { intros A k. cbn. rewrite Oc1, Nat.eqb_refl, orb_true_r, Hb2. reflexivity. }
    assert (Nil : run (fst a) (set_nil (a, p)) h n = Some (tt, upd h a (put_path c0 p (HPtr None)), n)).
    { unfold set_nil, assign. rewrite (run_store _ _ _ _ _ _ _ _ _ _ _ Hh). reflexivity. }
    assert (NilE : effect (fst a) h n a (b :: G1 ++ (b2 :: G5) ++ []) c0 p (VPtr None) (upd h a (put_path c0 p (HPtr None))) n (HPtr None) []).
    { split; auto; [apply upd_same|constructor|constructor|intros ? []|]. intros y N1 _ _. apply upd_other; auto. }
    unfold deref, load_ptr, elements. rewrite !run_bind, L. cbn [run star].
    change (fld (b, []) (ix fields_EvidenceIdentityChoice "Identities")) with (b, [1]).
    rewrite !run_bind, L2. cbn [run star]. rewrite !run_bind, L3.
    destruct ids as [[|first ids]|].
    - inversion HG5 as [| | | | | | |e cs3 vs3 G6 He HG6|]; subst. inversion HG6; subst.
      destruct (O e) as [Oe1 Oe2]; [cbn; rewrite !in_app_iff; cbn; auto 6|].
      cbn [run]. rewrite Oe1, Nat.eqb_refl, orb_true_r, He. cbn [get_path run length]. rewrite Nil.
      do 4 eexists. split; [reflexivity|exact NilE].
    - inversion HG5 as [| | | | | | |e cs3 vs3 G6 He HG6|]; subst.
      inversion HG6 as [|c1 w1 K1 cs4 vs4 K2 HK1 HK2]; subst.
      destruct (O e) as [Oe1 Oe2]; [cbn; rewrite !in_app_iff; cbn; auto 6|].
      cbn [run]. rewrite Oe1, Nat.eqb_refl, orb_true_r, He. cbn [get_path run length]. rewrite Oe1, Nat.eqb_refl, orb_true_r, He. cbn [get_path run nth_error].
      assert (A1 : a <> (fst a, n)) by (intros X; rewrite X in H2; cbn in *; lia).
      assert (A2 : a <> (fst a, S n)) by (intros X; rewrite X in H2; cbn in *; lia).
      unfold assign. cbn [run]. rewrite Nat.eqb_refl, !upd_other, H3, H4 by auto. 
      assert (KF : forall y, In y K1 -> In y (b :: G1 ++ (b2 :: (e :: K1 ++ K2)) ++ [])) by (intros y Y; cbn; rewrite !in_app_iff; cbn; rewrite !in_app_iff; tauto).
      assert (KN : NoDup K1).
      { inversion N as [|? ? _ N1]; subst. apply NoDup_app_remove_l in N1. cbn in N1. inversion N1 as [|? ? _ N2]; subst. inversion N2 as [|? ? _ N3]; subst.
        rewrite app_nil_r in N3. eapply NoDup_app_remove_r; eauto. }
      do 4 eexists. split; [reflexivity|]. split.
      + lia.
      + apply upd_same.
      + change (convertIdentityChoice_1_5 _) with (Some (mkEvidenceIdentityChoice (Some first) None)). cbn [vptr option_map].
        eapply (rep_ptr _ (fst a, S n)); [rewrite upd_other, upd_same by auto; reflexivity|].
        apply rep_struct. apply (reps_cons _ _ _ ((fst a, n) :: K1)).
        * eapply (rep_ptr _ (fst a, n)); [rewrite !upd_other by (auto; intros [=]; lia); apply upd_same|].
          eapply rep_frame; [exact HK1|]. intros y Y. destruct (O y (KF y Y)) as [Y1 Y2].
          rewrite !upd_other; auto; try (intros ->; cbn in *; lia). intros ->. apply H6, KF, Y.
        * apply (reps_cons _ _ _ [] _ _ []); [apply rep_nil|apply reps_nil].
      + cbn. rewrite app_nil_r. constructor; [|constructor; auto].
        * intros [X|X]; [injection X; lia|]. destruct (O _ (KF _ X)). cbn in *. lia.
        * intros X. destruct (O _ (KF _ X)). cbn in *. lia.
      + intros y. cbn. rewrite app_nil_r. intros [<-|[<-|Y]]; [right; split; cbn; auto; lia|right; split; cbn; auto; lia|left; apply KF; auto].
      + intros y N1 N2 N3. rewrite !upd_other; auto; intros ->; apply N3; split; cbn; auto; lia.
    - inversion HG5; subst. cbn [run]. rewrite Nil. do 4 eexists. split; [reflexivity|exact NilE].
  Qed.
  Lemma identity_does : does t (vptr reify_EvidenceIdentityChoice) always hConvertIdentityChoice convertIdentityChoice_1_5.
  Proof.
    unfold hConvertIdentityChoice. eapply does_ext; [|eapply (does_ifp t _ always several); [eapply reads_both with (D1 := present); [apply reads_set| |]|apply identities_does|]].
    2: { eapply (reads_atP t reify_EvidenceIdentityChoice _ _ false). stmt. }
    - intros [[one ids]|] _; unfold when_c; cbn; auto. destruct ids; reflexivity.
    - intros [y|] _ E; [exists y; auto|discriminate].
    - intros [[one ids]|] _; cbn; [|discriminate]. destruct ids as [ids|]; cbn; [|discriminate]. intros _. eexists _, _. split; reflexivity.
  Qed.

  Lemma drop_concluded_does : does t (vptr reify_Evidence) present
    (fun ev => ifp (both (at_ ev (fun e => is_set (fld e (ix fields_Evidence "Identity"))))
                     (at_ ev (fun e => at_ (fld e (ix fields_Evidence "Identity")) (fun i => is_set (fld i (ix fields_EvidenceIdentityChoice "Identity"))))))
             (via ev (fun e => via (fld e (ix fields_Evidence "Identity")) (fun i => via (fld i (ix fields_EvidenceIdentityChoice "Identity"))
                (fun x => clear (fld x (ix fields_EvidenceIdentity "ConcludedValue")))))))
    (behind (over_Evidence_Identity (behind dropConcludedValue))).
  Proof.
    eapply does_ext; [|eapply (does_ifp t (vptr reify_Evidence) present (fun o => exists e, o = Some e /\ exists i, Evidence_Identity e = Some i /\ exists x, EvidenceIdentityChoice_Identity i = Some x /\ always x))].
    2: { eapply reads_both with (D1 := fun o => exists e, o = Some e /\ exists i, Evidence_Identity e = Some i /\ always i).
         - eapply (reads_atP t reify_Evidence _ _ false). stmt.
         - eapply (reads_at t reify_Evidence _ _ _ false).
           eapply (reads_field t reify_Evidence _ _ _ _ at_Evidence_Identity (fun o => exists i, o = Some i /\ always i) (fun q => at_ q _)). eapply (reads_at t reify_EvidenceIdentityChoice always _ _ false). stmt.
         - intros o [e ->]. destruct e as [idn ? ? ? ?]. cbn. destruct idn as [i|]; [|discriminate]. intros _. eexists. split; [reflexivity|]. exists i. split; auto. exact I. }
    2: { eapply (does_via t reify_Evidence).
         eapply (does_field t reify_Evidence _ _ _ _ at_Evidence_Identity (fun o => exists i, o = Some i /\ exists x, EvidenceIdentityChoice_Identity i = Some x /\ always x) (fun q => via q _)). eapply (does_via t reify_EvidenceIdentityChoice).
         eapply (does_field t reify_EvidenceIdentityChoice _ _ _ _ at_EvidenceIdentityChoice_Identity (fun o => exists x, o = Some x /\ always x) (fun q => via q _)). eapply (does_via t reify_EvidenceIdentity _ _ always). stmt. }
    - intros o [e ->]. destruct e as [idn ? ? ? ?]. unfold when_c. cbn. destruct idn as [[[x|] ?]|]; reflexivity.
    - intros o [e ->] E. exists e. split; auto. destruct e as [idn ? ? ? ?]. cbn in *. destruct idn as [[[x|] ?]|]; try discriminate. eexists. split; auto. cbn. exists x. split; auto. exact I.
  Qed.

  Lemma evidence_ptr_does : does t (vptr reify_Evidence) present
    (fun ev =>
      if sv_lt sv SpecVersion1_3 then set_nil ev
      else if sv_lt sv SpecVersion1_5 then
        (via ev (fun e => set_nil (fld e (ix fields_Evidence "Identity")));;
         via ev (fun e => set_nil (fld e (ix fields_Evidence "Occurrences")));;
         via ev (fun e => set_nil (fld e (ix fields_Evidence "Callstack"))))
      else
        (whenp (sv_lt sv SpecVersion1_6) (
           via ev (fun e => hConvertIdentityChoice (fld e (ix fields_Evidence "Identity")));;
           ifp (both (at_ ev (fun e => is_set (fld e (ix fields_Evidence "Identity"))))
                     (at_ ev (fun e => at_ (fld e (ix fields_Evidence "Identity")) (fun i => is_set (fld i (ix fields_EvidenceIdentityChoice "Identity"))))))
             (via ev (fun e => via (fld e (ix fields_Evidence "Identity")) (fun i => via (fld i (ix fields_EvidenceIdentityChoice "Identity"))
                (fun x => clear (fld x (ix fields_EvidenceIdentity "ConcludedValue"))))));;
           via ev (fun e => for_each (fld e (ix fields_Evidence "Occurrences")) (fun occ =>
             set_nil (fld occ (ix fields_EvidenceOccurrence "Line"));;
             set_nil (fld occ (ix fields_EvidenceOccurrence "Offset"));;
             clear (fld occ (ix fields_EvidenceOccurrence "Symbol"));;
             clear (fld occ (ix fields_EvidenceOccurrence "AdditionalContext")))));;
         via ev (fun e => call (hConvertLicenses sv) (fld e (ix fields_Evidence "Licenses")))))
    (convertEvidence sv).
  Proof.
    destruct (sv_lt sv SpecVersion1_3) eqn:E3; [|destruct (sv_lt sv SpecVersion1_5) eqn:E5].
    - eapply does_ext; [|eapply does_weaken; [|apply does_set_nil]; intros; exact I].
      intros o [e ->]. unfold convertEvidence. rewrite E3. reflexivity.
    - eapply does_ext; [|repeat stmt].
      intros o [e ->]. unfold convertEvidence. rewrite E3, E5. reflexivity.
    - eapply does_ext; [|stmt; [stmt; stmt; [stmt; eapply (fieldA t reify_Evidence _ _ _ _ hConvertIdentityChoice); [hfield|apply identity_does]|stmt; [apply drop_concluded_does|repeat stmt]]|stmt; stmt; apply licenses_does]].
      intros o [e ->]. unfold convertEvidence. rewrite E3, E5. reflexivity.
  Qed.
  Lemma evidence_does : does t reify_Component always (hConvertEvidence sv) (over_Component_Evidence (convertEvidence sv)).
  Proof.
    eapply does_ext; [|unfold hConvertEvidence; enter; apply guardO; [|apply evidence_ptr_does]; reflexivity]. reflexivity.
  Qed.

  (** ** Components *)

  Lemma modelcard_does : does t reify_Component always (hConvertModelCard sv) (over_Component_ModelCard (convertModelCard sv)).
  Proof.
    unfold hConvertModelCard. eapply does_ext; [|stmt; stmt; eapply (nestedP t reify_MLModelCard); [hfield|stmt]]. reflexivity.
  Qed.
  Definition crypto_fun (cp : CryptoProperties) : CryptoProperties :=
    over_CryptoProperties_ProtocolProperties (behind (convertProtocolProperties sv))
      (over_CryptoProperties_RelatedCryptoMaterialProperties (behind (convertRelatedCryptoMaterial sv))
        (over_CryptoProperties_CertificateProperties (behind (convertCertificateProperties sv))
          (over_CryptoProperties_ProtocolProperties (behind (convertProtocolType sv))
            (over_CryptoProperties_AlgorithmProperties (behind (convertAlgorithmProperties sv)) cp)))).
  Lemma crypto_does : does t reify_CryptoProperties always (fun l => hConvertCryptoProperties sv (Some l)) crypto_fun.
  Proof.
    unfold hConvertCryptoProperties, unless_nil. cbv zeta.
    eapply does_ext; [|stmt; [repeat stmt|stmt; [|repeat stmt]]].
    2: { eapply (fieldA t reify_CryptoProperties (ix fields_CryptoProperties "ProtocolProperties") (vptr reify_CryptoProtocolProperties) _ _
           (fun l => ifp (both (is_set l) (at_ l _)) (via l _))); [hfield|]. eapply bothP; stmt. }
    reflexivity.
  Qed.
  Lemma modified_does : does t (vptr VBool) always hDefaultModified (fun m => match m with None => Some false | Some _ => m end).
  Proof.
    unfold hDefaultModified. eapply does_ext; [|eapply does_ifp; [apply reads_not, reads_set|eapply (does_alloc t VBool (HBool false) false); intros h; constructor|]].
    - intros [x|] _; reflexivity.
    - intros; exact I.
  Qed.

  Lemma componentConverter_does : does t reify_Component always (hComponentConverter sv) (componentConverter sv).
  Proof.
    unfold hComponentConverter. cbv zeta.
    eapply does_ext; [|
      repeat lazymatch goal with
      | |- does ?t ?R always (fun l => hDefaultModified (fld l ?i)) _ => eapply (fieldA t R i (vptr VBool) _ _ hDefaultModified); [hfield|apply modified_does]
      | |- does _ _ always (hConvertEvidence _) _ => apply evidence_does
      | |- does _ _ always (hConvertModelCard _) _ => apply modelcard_does
      | |- does _ _ always (fun l => hConvertExternalReferences _ (Some l)) _ => apply refs_does
      | |- does _ _ always (fun l => hConvertHashes _ (Some l)) _ => apply hashes_does
      | |- does _ _ always (fun l => hConvertLicenses _ (Some l)) _ => apply licenses_does
      | |- does _ _ always (fun l => hConvertCryptoProperties _ (Some l)) _ => apply crypto_does
      | |- _ => stmt
      end].
    intros c _. unfold componentConverter. reflexivity.
  Qed.

  (** Nested less than [n] deep. *)
  Fixpoint shallow_component (n : nat) (c : Component) : Prop :=
    match n with O => False | S n => forall x, child_component c x -> shallow_component n x end.
  Lemma shallow_component_S n c : shallow_component n c -> shallow_component (S n) c.
  Proof. revert c. induction n as [|n IH]; intros c; [intros []|]. intros H x Hx. apply IH, H, Hx. Qed.
  Lemma shallow_component_le n m c : n <= m -> shallow_component n c -> shallow_component m c.
  Proof. induction 1; auto using shallow_component_S. Qed.
  Lemma shallow_components (l : list Component) : (forall x, In x l -> exists n, shallow_component n x) -> exists n, forall x, In x l -> shallow_component n x.
  Proof.
    induction l as [|y l IH]; intros H; [exists 0; intros x []|].
    destruct (H y) as [n1 H1]; [cbn; auto|]. destruct IH as [n2 H2]; [intros; apply H; cbn; auto|].
    exists (max n1 n2). intros x [<-|X]; [eapply shallow_component_le; [|exact H1]; lia|eapply shallow_component_le; [|apply H2, X]; lia].
  Qed.
  Definition child_components (c : Component) : list Component :=
    members (Component_Components c) ++
    match Component_Pedigree c with
    | Some p => members (Pedigree_Ancestors p) ++ members (Pedigree_Descendants p) ++ members (Pedigree_Variants p)
    | None => []
    end.
  Lemma child_components_in c x : child_component c x <-> In x (child_components c).
  Proof.
    unfold child_component, child_components. rewrite in_app_iff. destruct (Component_Pedigree c) as [p|].
    - rewrite !in_app_iff. split; [intros [H|(q & [= <-] & H)]|intros [H|H]]; eauto.
    - split; [intros [H|(q & [=] & H)]|intros [H|[]]]; auto.
  Qed.
  Lemma shallow_component_ex c : exists n, shallow_component n c.
  Proof.
    induction c as [c IH] using component_induction.
    destruct (shallow_components (child_components c)) as [n H]; [intros x X; apply IH, child_components_in, X|].
    exists (S n). intros x X. apply H, child_components_in, X.
  Qed.
  Lemma converter_children c x : child_component (componentConverter sv c) x -> child_component c x.
  Proof.
    rewrite componentConverter_eq. unfold child_component. cbn [component_in_ Component_Components Component_Pedigree].
    assert (E : forall p : ptr (slice Component), in_place (fun c => c) p = p).
    { intros [[l|]|]; cbn; auto. rewrite map_id. auto. }
    rewrite E. intros [H|(p & Hp & H)]; auto. right. destruct (Component_Pedigree c) as [q|].
    - exists q. split; auto. unfold ptr_since, since in Hp. match type of Hp with (if ?b then _ else _) = _ => destruct b; [|discriminate] end.
      cbn in Hp. injection Hp as <-. cbn in H. rewrite !E in H. exact H.
    - unfold ptr_since, since in Hp. match type of Hp with (if ?b then _ else _) = _ => destruct b; discriminate end.
  Qed.
  Lemma converter_shallow n c : shallow_component n c -> shallow_component n (componentConverter sv c).
  Proof. destruct n as [|n]; cbn; auto. intros H x Hx. apply H. eapply converter_children; eauto. Qed.

  Definition all_shallow n (p : ptr (slice Component)) : Prop := forall s, p = Some s -> Forall (shallow_component n) (elems s).
  Lemma all_shallow_members n p : (forall x, In x (members p) -> shallow_component n x) -> all_shallow n p.
  Proof. intros H s ->. destruct s as [l|]; cbn; [|constructor]. apply Forall_forall. auto. Qed.
  Definition shallow_pedigree n (p : Pedigree_ Component) : Prop :=
    all_shallow n (Pedigree_Ancestors p) /\ all_shallow n (Pedigree_Descendants p) /\ all_shallow n (Pedigree_Variants p).
  Lemma shallow_parts n c : shallow_component (S n) c ->
    all_shallow n (Component_Components c) /\ forall p, Component_Pedigree c = Some p -> shallow_pedigree n p.
  Proof.
    intros H. split; [apply all_shallow_members; intros x X; apply H; left; auto|].
    intros p Hp. split; [|split]; apply all_shallow_members; intros x X; apply H; right; exists p; auto.
  Qed.

  Lemma recurseComponent_does n : does t reify_Component (shallow_component n) (fun l => hRecurseComponent sv n (Some l)) (recurseComponent sv).
  Proof.
    induction n as [|n IH]; [intros h m a c0 p c x F _ []|].
    cbn [hRecurseComponent unless_nil].
    eapply does_ext; [|eapply (does_seq t reify_Component (shallow_component (S n)) (shallow_component (S n)));
      [eapply does_weaken; [|apply componentConverter_does]; intros; exact I| |apply converter_shallow]].
    2: { eapply (does_seq t reify_Component (shallow_component (S n)) (fun c => forall p, Component_Pedigree c = Some p -> shallow_pedigree n p)).
         - eapply does_weaken; [|eapply (does_field t reify_Component _ _ _ _ at_Component_Components (all_shallow n) (fun l => for_each l _)), does_for_each, IH].
           intros c H. apply shallow_parts, H.
         - eapply (does_field t reify_Component _ _ _ _ at_Component_Pedigree (fun o => forall p, o = Some p -> shallow_pedigree n p) (fun l => guarded l _)).
           apply guardD. eapply (seqPD t _ (shallow_pedigree n) (fun p => all_shallow n (Pedigree_Descendants p) /\ all_shallow n (Pedigree_Variants p))); [|eapply (seqPD t _ _ (fun p => all_shallow n (Pedigree_Variants p)))|].
           + apply does_via. eapply does_weaken; [|eapply (does_field t (reify_Pedigree_ reify_Component) _ _ _ _ (at_Pedigree_Ancestors reify_Component) (all_shallow n) (fun l => for_each l _)), does_for_each, IH].
             intros p Hp. apply Hp.
           + apply does_via. eapply does_weaken; [|eapply (does_field t (reify_Pedigree_ reify_Component) _ _ _ _ (at_Pedigree_Descendants reify_Component) (all_shallow n) (fun l => for_each l _)), does_for_each, IH].
             intros p Hp. apply Hp.
           + apply does_via. eapply (does_field t (reify_Pedigree_ reify_Component) _ _ _ _ (at_Pedigree_Variants reify_Component) (all_shallow n) (fun l => for_each l _)), does_for_each, IH.
           + intros p (B & C). destruct p. exact C.
           + intros p (A & B & C). destruct p. split; auto.
         - intros c H p Hp. apply (proj2 (shallow_parts _ _ H)). destruct c. exact Hp. }
    intros c _. rewrite recurseComponent_unfold. reflexivity.
  Qed.

  (** ** Services *)

  Lemma serviceConverter_does : does t reify_Service always (hServiceConverter sv) (serviceConverter sv).
  Proof.
    unfold hServiceConverter. cbv zeta.
    eapply does_ext; [|
      repeat lazymatch goal with
      | |- does _ _ always (fun l => hConvertExternalReferences _ (Some l)) _ => apply refs_does
      | |- does _ _ always (fun l => hConvertOrganizationalEntity _ (Some l)) _ => apply entity_does
      | |- does _ _ always (fun l => hConvertDataClassifications _ (Some l)) _ => apply data_does
      | |- _ => stmt
      end].
    intros s _. unfold serviceConverter, convertDataClassifications. unfold when. destruct (sv_lt sv SpecVersion1_6); reflexivity.
  Qed.
  Fixpoint shallow_service (n : nat) (c : Service) : Prop :=
    match n with O => False | S n => forall x, child_service c x -> shallow_service n x end.
  Lemma shallow_service_S n c : shallow_service n c -> shallow_service (S n) c.
  Proof. revert c. induction n as [|n IH]; intros c; [intros []|]. intros H x Hx. apply IH, H, Hx. Qed.
  Lemma shallow_service_le n m c : n <= m -> shallow_service n c -> shallow_service m c.
  Proof. induction 1; auto using shallow_service_S. Qed.
  Lemma shallow_services (l : list Service) : (forall x, In x l -> exists n, shallow_service n x) -> exists n, forall x, In x l -> shallow_service n x.
  Proof.
    induction l as [|y l IH]; intros H; [exists 0; intros x []|].
    destruct (H y) as [n1 H1]; [cbn; auto|]. destruct IH as [n2 H2]; [intros; apply H; cbn; auto|].
    exists (max n1 n2). intros x [<-|X]; [eapply shallow_service_le; [|exact H1]; lia|eapply shallow_service_le; [|apply H2, X]; lia].
  Qed.
  Lemma shallow_service_ex c : exists n, shallow_service n c.
  Proof.
    induction c as [c IH] using service_induction.
    destruct (shallow_services (members (Service_Services c))) as [n H]; [intros x X; apply IH, X|].
    exists (S n). intros x X. apply H, X.
  Qed.
  Definition all_shallow_s n (p : ptr (slice Service)) : Prop := forall s, p = Some s -> Forall (shallow_service n) (elems s).
  Lemma recurseService_does n : does t reify_Service (shallow_service n) (fun l => hRecurseService sv n (Some l)) (recurseService sv).
  Proof.
    induction n as [|n IH]; [intros h m a c0 p c x F _ []|].
    cbn [hRecurseService unless_nil].
    eapply does_ext; [|eapply (does_seq t reify_Service (shallow_service (S n)) (fun s => all_shallow_s n (Service_Services s)));
      [eapply does_weaken; [|apply serviceConverter_does]; intros; exact I| |]].
    2: { eapply (does_field t reify_Service _ _ _ _ at_Service_Services (all_shallow_s n) (fun l => for_each l _)), does_for_each, IH. }
    - intros c _. rewrite recurseService_unfold. reflexivity.
    - intros c H s. rewrite serviceConverter_eq. cbn [service_in_ Service_Services]. intros E.
      assert (E' : Service_Services c = Some s). { destruct (Service_Services c) as [[l|]|]; cbn in E; auto. rewrite map_id in E. auto. }
      destruct s as [l|]; cbn; [|constructor]. apply Forall_forall. intros x X. apply H. unfold child_service. rewrite E'. exact X.
  Qed.
End Converters.
