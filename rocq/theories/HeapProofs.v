(** The programs of HeapModel.v compute the functions of ConvertModel.v: every convert
    function, run on memory that represents a value as a tree, leaves the converted value
    there, without a crash and without touching anything outside that memory. *)
From Coq Require Import Lia.
From Verif Require Import Base Types Univ TypeTable Reify Consts Version ConvertModel ConvertSpec ConvertProofs GobModel HeapModel HeapLogic HeapFields.
Local Open Scope string_scope.
Local Open Scope prog_scope.
Local Open Scope list_scope.

(** ** Derived rules *)
Section Derived.
  Variable t : nat.
  Context {T : Type} (R : T -> val).
  Lemma seqA P Q f g : does t R always P f -> does t R always Q g -> does t R always (fun l => P l;; Q l) (fun x => g (f x)).
  Proof. intros. eapply does_seq; eauto. Qed.
  Lemma seqP P Q (f g : T -> T) : does t (vptr R) present P (behind f) -> does t (vptr R) present Q (behind g) ->
    does t (vptr R) present (fun l => P l;; Q l) (behind (fun x => g (f x))).
  Proof.
    intros. eapply does_ext; [|eapply does_seq; eauto].
    - intros [x|]; reflexivity.
    - intros o [y ->]. exists (f y). reflexivity.
  Qed.
  Lemma viaP P f : does t R always P f -> does t (vptr R) present (fun l => via l P) (behind f).
  Proof. intros. eapply does_weaken; [|apply does_via; eauto]. intros o [y ->]. exists y. split; auto. exact I. Qed.
  Lemma whenP b P (f : T -> T) : does t (vptr R) present P (behind f) -> does t (vptr R) present (fun l => whenp b (P l)) (behind (when b f)).
  Proof. intros. eapply does_ext; [|apply does_when; eauto]. intros [x|] _; destruct b; reflexivity. Qed.
  Lemma ifpP E e P (f : T -> T) : reads t R always E e -> does t (vptr R) present P (behind f) ->
    does t (vptr R) present (fun l => ifp (at_ l E) (P l)) (behind (when_c e f)).
  Proof.
    intros HE HP. eapply does_ext; [|eapply does_ifp; [eapply reads_weaken; [|apply (reads_at t R always E e false HE)]|exact HP|]].
    - intros [x|] [y [=]]. unfold when_c. cbn. destruct (e x); reflexivity.
    - intros o [y ->]. exists y. split; auto. exact I.
    - auto.
  Qed.
  Lemma guardP P (f : T -> T) : does t (vptr R) present P (behind f) -> does t (vptr R) always (fun l => guarded l P) (behind f).
  Proof.
    intros HP. unfold guarded. eapply does_ext; [|eapply does_ifp; [apply reads_set|exact HP|]].
    - intros [x|] _; reflexivity.
    - intros [x|] _ E; [exists x; auto|discriminate].
  Qed.
  Lemma guardO P f : f None = None -> does t (vptr R) present P f -> does t (vptr R) always (fun l => guarded l P) f.
  Proof.
    intros H0 HP. unfold guarded. eapply does_ext; [|eapply does_ifp; [apply reads_set|exact HP|]].
    - intros [x|] _; unfold when_c; cbn; auto.
    - intros [x|] _ E; [exists x; auto|discriminate].
  Qed.
  Lemma callA g f : g None = Ret tt -> does t R always (fun l => g (Some l)) f -> does t (vptr R) always (call g) (behind f).
  Proof. intros. eapply does_weaken; [|apply does_call; eauto]. intros ? ? ? ?; exact I. Qed.
  Lemma forA P f : does t R always P f -> does t (vptr (vslice R)) always (fun l => for_each l P) (each f).
  Proof. intros. eapply does_weaken; [|apply does_for_each; eauto]. intros ? ? ? ?. apply Forall_forall. intros; exact I. Qed.
  Lemma rangeA P f : does t R always P f -> does t (vslice R) always (fun l => range l P) (option_map (map f)).
  Proof. intros. eapply does_weaken; [|apply does_range; eauto]. intros ? ?. apply Forall_forall. intros; exact I. Qed.
  Lemma ifpA E e P f : reads t R always E e -> does t R always P f -> does t R always (fun l => ifp (E l) (P l)) (when_c e f).
  Proof. intros. eapply does_ifp; eauto. Qed.

  Context {U : Type} (i : nat) (R' : U -> val) (get : T -> U) (over : (U -> U) -> T -> T).
  Lemma fieldA P f : is_field R i R' get over -> does t R' always P f -> does t R always (fun l => P (fld l i)) (over f).
  Proof. intros Hf HP. exact (does_field t R i R' get over Hf always P f HP). Qed.
  Lemma freadA {B} (E : loc -> prog B) e : is_field R i R' get over -> reads t R' always E e -> reads t R always (fun l => E (fld l i)) (fun x => e (get x)).
  Proof. intros Hf HE. exact (reads_field t R i R' get over Hf always E e HE). Qed.
End Derived.

(** ** Loops that collect what they keep *)

(** The bodies of such loops: change the element, and copy it if it is to be kept. *)
Definition pick (P : loc -> prog unit) (E : loc -> prog bool) (l : loc) : prog (option hval) :=
  P l;; keep <- E l;; if keep then Load l (fun v => Ret (Some v)) else Ret None.
Fixpoint kept {T C} (keep : T -> bool) (l : list T) (cs : list C) : list C :=
  match l, cs with x :: l', c :: cs' => if keep x then c :: kept keep l' cs' else kept keep l' cs' | _, _ => [] end.

Lemma gather_spec {T} t (R : T -> val) P E f keep : does t R always P f -> reads t R always E keep ->
  forall l h n b cs done G1 G2, fst b = t -> snd b < n -> h b = Some (HStruct (done ++ cs)) ->
    reps h cs (map R l) G2 -> ~ In b G2 -> owned t n (G1 ++ G2) ->
    exists h' n' cs' G2', run t (gather (length done) (length l) (fun i => pick P E (b, [i]))) h n = Some (kept keep (map f l) cs', h', n') /\ n <= n' /\
      h' b = Some (HStruct (done ++ cs')) /\ reps h' cs' (map R (map f l)) G2' /\ NoDup (G1 ++ G2') /\
      (forall x, In x G2' -> In x G2 \/ fresh t n n' x) /\
      (forall x, x <> b -> ~ In x G2 -> ~ fresh t n n' x -> h' x = h x).
Proof.
  intros Hb HE. induction l as [|x l IH]; intros h n b cs done G1 G2 B1 B2 B3 Hcs Hnb Ho.
  - inversion Hcs; subst. exists h, n, [], []. cbn. destruct Ho as [N O]. split; [auto|]. split; [auto|]. split; [auto|]. split; [constructor|]. split; [auto|]. split; [tauto|auto].
  - inversion Hcs as [|c v F cs0 vs G Hc Hcs' E1 E2]; subst.
    assert (Hh : holds (fst b) h n b (HStruct (done ++ c :: cs0)) [length done] c (R x) F).
    { split; auto.
      - cbn. rewrite nth_error_app2, Nat.sub_diag by lia. auto.
      - intros X. apply Hnb. rewrite in_app_iff; auto.
      - eapply (owned_part _ _ G1 F G). auto. }
    destruct (Hb _ _ _ _ _ _ _ _ Hh I) as (h1 & n1 & c1 & F1 & R1 & X1).
    pose proof (effect_holds _ _ _ _ _ _ _ _ _ _ _ _ _ _ Hh X1) as Hh1.
    pose proof (HE _ _ _ _ _ _ _ _ Hh1 I) as RE.
    destruct X1 as [A1 A2 A3 A4 A5 A6].
    assert (PP : put_path (HStruct (done ++ c :: cs0)) [length done] c1 = HStruct ((done ++ [c1]) ++ cs0)).
    { cbn. rewrite nth_error_app2, Nat.sub_diag by lia. cbn. f_equal. clear. induction done as [|y done IH]; cbn; auto. rewrite IH. auto. }
    assert (RB : run (fst b) (pick P E (b, [length done])) h n = Some (if keep (f x) then Some c1 else None, h1, n1)).
    { unfold pick. rewrite run_bind, R1. rewrite run_bind, RE. destruct (keep (f x)); [|reflexivity].
      rewrite (run_load _ _ _ _ _ _ _ _ _ _ Hh1). reflexivity. }
    rewrite PP in A2.
    assert (Dis : forall y, In y G1 \/ In y G -> y <> b -> ~ In y F /\ ~ fresh (fst b) n n1 y).
    { intros y Hy Nb. split.
      - intros X. destruct (nodup_disjoint G1 F G y (proj1 Ho) X). tauto.
      - intros [X1 X2]. destruct Ho as [_ O]. destruct (O y); [rewrite !in_app_iff; tauto|lia]. }
    assert (NbG : ~ In b G) by (intros X; apply Hnb; rewrite in_app_iff; auto).
    destruct (IH h1 n1 b cs0 (done ++ [c1]) (G1 ++ F1) G) as (h2 & n2 & cs' & G2' & R2 & C1 & C2 & C3 & C4 & C5 & C6); auto; try lia.
    + eapply reps_frame; eauto. intros y Hy. assert (Yb : y <> b) by (intros ->; auto). destruct (Dis y (or_intror Hy) Yb). apply A6; auto.
    + destruct Ho as [N O]. split.
      * rewrite <- app_assoc. eapply nodup_replace; eauto. intros y Hy. destruct (A5 _ Hy) as [X|X].
        -- eapply nodup_disjoint; eauto.
        -- split; intros Y; (destruct (O y) as [_ O1]; [rewrite !in_app_iff; tauto|destruct X; lia]).
      * intros y. rewrite !in_app_iff. intros [[Y|Y]|Y].
        -- destruct (O y); [rewrite !in_app_iff; auto|]. split; auto; lia.
        -- destruct (A5 _ Y) as [Y1|[Y1 Y2]]; [|split; auto; lia]. destruct (O y); [rewrite !in_app_iff; auto|]. split; auto; lia.
        -- destruct (O y); [rewrite !in_app_iff; auto|]. split; auto; lia.
    + exists h2, n2, (c1 :: cs'), (F1 ++ G2'). split; [|split; [lia|split; [|split; [|split; [|split]]]]].
      * change (run (fst b) (and_then (pick P E (b, [length done])) (fun o => and_then (gather (S (length done)) (length l) (fun i => pick P E (b, [i])))
                  (fun l => Ret (match o with Some v => v :: l | None => l end)))) h n = Some (kept keep (map f (x :: l)) (c1 :: cs'), h2, n2)).
        rewrite run_bind, RB. rewrite app_length in R2. cbn in R2. rewrite Nat.add_comm in R2.
        rewrite run_bind. cbn in R2 |- *. rewrite R2. cbn. destruct (keep (f x)); auto.
      * rewrite <- app_assoc in C2. exact C2.
      * cbn. constructor; auto. eapply rep_frame; eauto. intros y Hy. apply C6.
        -- intros ->. destruct (A5 _ Hy) as [X|[X1 X2]]; [apply Hnb; rewrite in_app_iff; auto|lia].
        -- intros X. destruct (A5 _ Hy) as [Y|[Y1 Y2]].
           ++ destruct (nodup_disjoint G1 F G y (proj1 Ho) Y); auto.
           ++ destruct Ho as [_ O]. destruct (O y); [rewrite !in_app_iff; auto|lia].
        -- intros [X1 X2]. destruct (A5 _ Hy) as [Y|[Y1 Y2]]; [|lia]. destruct Ho as [_ O]. destruct (O y); [rewrite !in_app_iff; auto|lia].
      * rewrite app_assoc. auto.
      * intros y. rewrite !in_app_iff. intros [Y|Y].
        -- destruct (A5 _ Y); auto. right. eapply fresh_later; [| |left; eauto]; auto.
        -- destruct (C5 _ Y); auto. right. eapply fresh_later; [| |right; eauto]; auto.
      * intros y N1 N2 N3. rewrite in_app_iff in N2. rewrite C6, A6; auto.
        -- intros X. apply N3. eapply fresh_later; [| |left; eauto]; auto.
        -- intros X. apply N3. eapply fresh_later; [| |right; eauto]; auto.
Qed.

Lemma reps_kept {T} (R : T -> val) keep h l : forall cs G, reps h cs (map R l) G -> NoDup G ->
  exists G', reps h (kept keep l cs) (map R (filter keep l)) G' /\ NoDup G' /\ incl G' G.
Proof.
  induction l as [|x l IH]; intros cs G H N.
  - inversion H; subst. exists []. split; [constructor|]. split; [constructor|]. intros ? [].
  - inversion H as [|c v F cs0 vs G0 Hc Hcs]; subst. cbn [kept filter].
    destruct (IH cs0 G0 Hcs (NoDup_app_remove_l _ _ N)) as (G' & A & B & C).
    destruct (keep x).
    + exists (F ++ G'). split; [cbn; constructor; auto|]. split.
      * clear -N B C. induction F as [|y F IHF]; cbn in *; auto. inversion N; subst. constructor; auto.
        intros X. apply H1. rewrite in_app_iff in *. destruct X; auto.
      * intros y. rewrite !in_app_iff. intros [?|?]; auto.
    + exists G'. split; auto. split; auto. intros y Y. rewrite in_app_iff; auto.
Qed.

(** Storing a collected list in the slice variable it came from. *)
Lemma store_collected_spec {T} t (R : T -> val) (s : slice T) l h n a c0 p c v F cs G :
  holds t h n a c0 p c v F -> reps h cs (map R l) G -> NoDup G -> ~ In a G -> (forall b, In b G -> fst b = t /\ snd b < n) ->
  exists h' n' c' G', run t (store_collected (a, p) cs) h n = Some (tt, h', n') /\ n <= n' /\ h' a = Some (put_path c0 p c') /\
    rep h' c' (vslice R (nil_if_empty l)) G' /\ NoDup G' /\ (forall b, In b G' -> In b G \/ fresh t n n' b) /\
    (forall b, b <> a -> ~ fresh t n n' b -> h' b = h b).
Proof.
  intros Hh HG N Na O. destruct l as [|x l].
  - inversion HG; subst. cbn [store_collected]. unfold assign. rewrite (run_store _ _ _ _ _ _ _ _ _ _ _ Hh). cbn.
    do 4 eexists. split; [reflexivity|]. split; [lia|]. split; [apply upd_same|]. split; [constructor|]. split; [constructor|].
    split; [intros b []|]. intros b Nb _. apply upd_other; auto.
  - inversion HG as [|c1 v1 F1 cs1 vs1 G1 H1 H2]; subst. cbn [store_collected new_slice and_then]. 
    change (run t (Alloc (HStruct (c1 :: cs1)) (fun a0 => assign (a, p) (HSlice (Some a0)))) h n) with
      (run t (assign (a, p) (HSlice (Some (t, n)))) (upd h (t, n) (HStruct (c1 :: cs1))) (S n)).
    assert (An : a <> (t, n)). { intros ->. pose proof (ho_n _ _ _ _ _ _ _ _ _ Hh). cbn in *. lia. }
    assert (Gn : forall b, In b (F1 ++ G1) -> b <> (t, n)). { intros b Hb ->. destruct (O _ Hb). cbn in *. lia. }
    assert (E : run t (assign (a, p) (HSlice (Some (t, n)))) (upd h (t, n) (HStruct (c1 :: cs1))) (S n) =
                Some (tt, upd (upd h (t, n) (HStruct (c1 :: cs1))) a (put_path c0 p (HSlice (Some (t, n)))), S n)).
    { destruct Hh as [Q1 Q2 Q3 Q4 Q5 Q6 Q7]. cbn. rewrite Q1, Nat.eqb_refl, upd_other, Q3, Q4 by auto. reflexivity. }
    rewrite E. do 4 eexists. split; [reflexivity|]. split; [lia|]. split; [apply upd_same|]. split.
    + cbn. apply (rep_slice _ (t, n) (c1 :: cs1)).
      * rewrite upd_other, upd_same by auto. reflexivity.
      * eapply reps_frame; [exact HG|]. intros b Hb. rewrite !upd_other; auto. intros ->; auto.
    + split; [|split].
      * constructor; auto. intros X. exact (Gn _ X eq_refl).
      * intros b [<-|Hb]; auto. right. split; cbn; auto; lia.
      * intros b N1 N2. rewrite !upd_other; auto. intros ->. apply N2. split; cbn; auto; lia.
Qed.

Lemma does_filter {T} t (R : T -> val) P E f keep : does t R always P f -> reads t R always E keep ->
  does t (vslice R) always (fun l => vs <- collect l (pick P E);; store_collected l vs) (fun s => nil_if_empty (filter keep (map f (elems s)))).
Proof.
  intros HP HE h n a c0 p c x F Hh _. unfold collect. rewrite !run_bind, (run_elements _ _ _ _ _ _ _ _ _ _ Hh).
  pose proof (holds_range _ _ _ _ _ _ _ _ _ _ Hh) as Q. destruct x as [l|].
  - destruct Q as (b & cs & G & -> & -> & B1 & B2 & B3).
    pose proof Hh as [H1 H2 H3 H4 H5 H6 H7]. destruct H7 as [N O]. inversion N as [|? ? N1 N2]; subst.
    destruct (O b) as [O1 O2]; [cbn; auto|].
    destruct (gather_spec _ R P E f keep HP HE l h n b cs [] [] G) as (h1 & n1 & cs' & G' & Eq & C1 & C2 & C3 & C4 & C5 & C6); auto.
    { split; auto. intros; apply O; cbn; auto. }
    cbn [length] in Eq. rewrite Eq. cbn in C4.
    destruct (reps_kept R keep h1 (map f l) cs' G' C3 C4) as (G'' & K1 & K2 & K3).
    assert (Ga : forall y, In y G' -> y <> a). { intros y Hy ->. destruct (C5 _ Hy) as [X|[X1 X2]]; [apply H6; cbn; auto|lia]. }
    assert (Ca : h1 a = h a). { apply C6; [intros ->; apply H6; cbn; auto|intros X; apply H6; cbn; auto|intros [X1 X2]; lia]. }
    assert (Hh1 : holds (fst a) h1 n1 a c0 p (HSlice (Some b)) (vslice R (Some (map f l))) (b :: G')).
    { split; auto; try lia; try congruence.
      - cbn. econstructor; [exact C2|exact C3].
      - intros [X|X]; [apply H6; cbn; auto|exact (Ga a X eq_refl)].
      - split.
        + constructor; auto. intros X. destruct (C5 _ X) as [?|[? ?]]; auto; lia.
        + intros y [<-|Y]; [split; auto; lia|]. destruct (C5 _ Y) as [X|[X1 X2]]; [|split; auto; lia].
          destruct (O y); [cbn; auto|]. split; auto; lia. }
    destruct (store_collected_spec _ R (Some l) (filter keep (map f l)) _ _ _ _ _ _ _ _ _ _ Hh1 K1 K2) as (h2 & n2 & c2 & G2 & Eq2 & D1 & D2 & D3 & D4 & D5 & D6).
    { intros X. exact (Ga a (K3 _ X) eq_refl). }
    { intros y Y. destruct (ho_own _ _ _ _ _ _ _ _ _ Hh1) as [_ O']. apply O'. cbn; auto. }
    exists h2, n2, c2, G2. split; [exact Eq2|]. split; auto; try lia.
    + intros y Y. destruct (D5 _ Y) as [X|X].
      * destruct (C5 _ (K3 _ X)) as [Z|Z]; [left; cbn; auto|right; eapply fresh_later; [| |left; exact Z]; auto].
      * right. eapply fresh_later; [| |right; exact X]; auto.
    + intros y M1 M2 M3. cbn in M2. rewrite D6, C6; auto.
      * intros X. apply M3. eapply fresh_later; [| |left; exact X]; auto.
      * intros X. apply M3. eapply fresh_later; [| |right; exact X]; auto.
  - destruct Q as [-> ->]. cbn [elems map filter nil_if_empty].
    destruct (store_collected_spec t R None [] _ _ _ _ _ _ _ _ [] [] Hh) as (h2 & n2 & c2 & G2 & Eq2 & D1 & D2 & D3 & D4 & D5 & D6); auto.
    { constructor. } { constructor. } { intros ? []. }
    exists h2, n2, c2, G2. split; [exact Eq2|]. split; auto.
Qed.

(** One statement, on a struct or on a pointer that is not nil. *)
Ltac hfield := solve [eauto 2 with hfields].
Ltac hdone := fail.
Ltac stmt :=
  lazymatch goal with
  | |- does _ _ always (fun l => and_then (@?P l) (fun _ => @?Q l)) _ => eapply seqA
  | |- does _ _ present (fun l => and_then (@?P l) (fun _ => @?Q l)) _ => eapply seqP
  | |- does _ _ present (fun l => whenp _ _) _ => eapply whenP
  | |- does _ _ always (fun l => whenp _ _) _ => eapply does_when
  | |- does _ _ present (fun l => via l _) _ => eapply viaP
  | |- does _ _ present (fun l => ifp (at_ l _) _) _ => eapply ifpP
  | |- does ?t ?R always (fun l => clear (fld l ?i)) _ => eapply (fieldA t R i VStr _ _ clear); [hfield|apply does_clear]
  | |- does ?t ?R always (fun l => set_nil (fld l ?i)) _ => eapply (fieldA t R i (vptr _) _ _ set_nil); [hfield|apply does_set_nil]
  | |- does ?t ?R always (fun l => assign (fld l ?i) (HStr ?s)) _ =>
      eapply (fieldA t R i VStr _ _ (fun l => assign l (HStr s))); [hfield|eapply (does_assign _ VStr); intros ?; apply rep_str]
  | |- does ?t ?R always (fun l => assign (fld l ?i) (HInt ?s)) _ =>
      eapply (fieldA t R i VInt _ _ (fun l => assign l (HInt s))); [hfield|eapply (does_assign _ VInt); intros ?; apply rep_int]
  | |- does ?t ?R always (fun l => guarded (fld l ?i) ?P) _ =>
      eapply (fieldA t R i (vptr _) _ _ (fun l => guarded l P)); [hfield|eapply guardP]
  | |- does ?t ?R always (fun l => call ?g (fld l ?i)) _ =>
      eapply (fieldA t R i (vptr _) _ _ (call g)); [hfield|eapply callA; [reflexivity|]]
  | |- does ?t ?R always (fun l => for_each (fld l ?i) ?P) _ =>
      eapply (fieldA t R i (vptr (vslice _)) _ _ (fun l => for_each l P)); [hfield|eapply forA]
  | |- does _ _ always (fun l => ifp _ _) _ => eapply ifpA
  | |- does _ (vslice _) always (fun l => range l _) _ => eapply rangeA
  | |- does _ _ present (call _) _ => eapply does_weaken; [|eapply callA; [reflexivity|]]; [intros; exact I|]
  | |- reads ?t ?R always (fun l => str_is ?test (fld l ?i)) _ => eapply (freadA t R i VStr _ _ (str_is test)); [hfield|apply reads_str]
  | |- reads ?t ?R always (fun l => is_set (fld l ?i)) _ => eapply (freadA t R i (vptr _) _ _ is_set); [hfield|apply reads_set]
  end.

Section Converters.
  Variables (t : nat) (sv : SpecVersion).

  Lemma contact_does : does t reify_OrganizationalContact always (fun l => hConvertOrganizationalContact sv (Some l)) (convertOrganizationalContact sv).
  Proof. unfold hConvertOrganizationalContact, unless_nil. eapply does_ext; [|repeat stmt]. reflexivity. Qed.
  Lemma entity_does : does t reify_OrganizationalEntity always (fun l => hConvertOrganizationalEntity sv (Some l)) (convertOrganizationalEntity sv).
  Proof. unfold hConvertOrganizationalEntity, unless_nil. eapply does_ext; [|repeat stmt; apply contact_does]. reflexivity. Qed.
  Lemma data_does : does t (vslice reify_DataClassification) always (fun l => hConvertDataClassifications sv (Some l))
    (when (sv_lt sv SpecVersion1_6) (option_map (map (fun d =>
         set_DataClassification_Destination None (set_DataClassification_Source None (set_DataClassification_Governance None
           (set_DataClassification_Description "" (set_DataClassification_Name "" d)))))))).
  Proof. unfold hConvertDataClassifications, unless_nil. eapply does_ext; [|repeat stmt]. reflexivity. Qed.
  Lemma refs_does : does t (vslice reify_ExternalReference) always (fun l => hConvertExternalReferences sv (Some l)) (option_map (map (convertExternalReference sv))).
  Proof. unfold hConvertExternalReferences, unless_nil. eapply does_ext; [|repeat stmt]. reflexivity. Qed.
  Lemma hashes_does : does t (vslice reify_Hash) always (fun l => hConvertHashes sv (Some l))
    (fun s => nil_if_empty (filter (fun h => supportsHashAlgorithm sv (Hash_Algorithm h)) (elems s))).
  Proof.
    unfold hConvertHashes, unless_nil.
    eapply does_ext; [|eapply (does_filter t reify_Hash (fun _ => Ret tt) (fun l => str_is (supportsHashAlgorithm sv) (fld l (ix fields_Hash "Algorithm")))); [apply does_ret|stmt]].
    intros x _. cbv beta. rewrite map_id. reflexivity.
  Qed.

  (** Licences *)
  Definition license_set (o : ptr License) : bool := match o with Some _ => true | None => false end.
  Lemma choice_1_0_does : does t reify_LicenseChoice always hConvertLicenseChoice_1_0 convertLicenseChoice_1_0.
  Proof.
    unfold hConvertLicenseChoice_1_0.
    eapply does_ext; [|eapply seqA; [|stmt]].
    2: eapply (fieldA t reify_LicenseChoice _ (vptr reify_License) _ _ (fun l => guarded l _)); [hfield|].
    2: { unfold guarded. eapply (does_ifp t (vptr reify_License) always present); [apply reads_set| |].
         2: { intros o _ H. destruct o as [y|]; [|discriminate]. exists y. reflexivity. }
         eapply does_ifelse with (D1 := always).
         - eapply reads_both with (D1 := present).
           + eapply reads_weaken; [|eapply (reads_at t reify_License always); stmt]. intros o [y ->]. exists y. split; [auto|exact I].
           + eapply reads_weaken; [|eapply (reads_at t reify_License always); stmt]. intros o [y ->]. exists y. split; [auto|exact I].
           + auto.
         - apply does_set_nil.
         - repeat stmt.
         - intros; exact I. }
    Unshelve. all: try exact false.
    intros x _. destruct x as [l ? ? ? ? ? ?]; cbv [convertLicenseChoice_1_0 over_LicenseChoice_License when_c LicenseChoice_License].
    destruct l as [l|]; [|reflexivity]. cbn [set_p]. destruct (str_eqb (License_ID l) ""); cbn; [|reflexivity]. destruct (str_eqb (License_Name l) ""); reflexivity.
  Qed.
  Lemma licenses_1_0_does : does t (vslice reify_LicenseChoice) always hConvertLicenses_1_0 convertLicenses_1_0.
  Proof.
    unfold hConvertLicenses_1_0.
    eapply does_ext; [|eapply (does_filter t reify_LicenseChoice hConvertLicenseChoice_1_0 (fun l => is_set (fld l (ix fields_LicenseChoice "License")))); [apply choice_1_0_does|stmt]].
    reflexivity.
  Qed.
  Lemma licenses_1_4_does : does t (vslice reify_LicenseChoice) always hConvertLicenses_1_4 (option_map (map convertLicenseChoice_1_4)).
  Proof. unfold hConvertLicenses_1_4. eapply does_ext; [|repeat stmt]. reflexivity. Qed.

  Definition licensed (o : ptr License) : Prop := exists l g, o = Some l /\ License_Licensing l = Some g.
  Lemma party_does name (get : Licensing -> ptr OrganizationalEntityOrContact) over :
    is_field reify_Licensing (ix fields_Licensing name) (vptr reify_OrganizationalEntityOrContact) get over ->
    does t (vptr reify_License) licensed (fun l => hConvertParty sv l name)
      (behind (over_License_Licensing (behind (over (behind (convertParty sv)))))).
  Proof.
    intros Hf. unfold hConvertParty.
    eapply does_ext; [|eapply (does_ifp t (vptr reify_License) licensed (fun o => exists l g, o = Some l /\ License_Licensing l = Some g /\ present (get g)))].
    2: { eapply reads_weaken; [|eapply (reads_at t reify_License)].
         2: { eapply (reads_field t reify_License _ (vptr reify_Licensing) _ _ at_License_Licensing _ (fun q => at_ q _)).
              eapply (reads_at t reify_Licensing always). eapply (freadA t reify_Licensing _ (vptr reify_OrganizationalEntityOrContact) _ _ is_set); [exact Hf|apply reads_set]. }
         intros o (l & g & -> & E). exists l. split; auto. exists g. split; auto. exact I. }
    2: { eapply does_weaken; [|eapply (does_via t reify_License)].
         2: { eapply (does_field t reify_License _ (vptr reify_Licensing) _ _ at_License_Licensing _ (fun q => via q _)).
              eapply (does_via t reify_Licensing).
              eapply (does_field t reify_Licensing _ (vptr reify_OrganizationalEntityOrContact) _ _ Hf _ (fun q => via q _)).
              eapply (does_via t reify_OrganizationalEntityOrContact _ _ always).
              stmt. apply entity_does. }
         intros o (l & g & -> & E1 & y & E2). exists l. split; auto. exists g. split; auto. exists y. split; auto. exact I. }
    - intros o (l & g & -> & E). destruct (Hf g) as (_ & L1 & _). unfold when_c. cbn. rewrite E.
      destruct (get g) as [q|] eqn:Eg; cbn; [reflexivity|].
      f_equal. unfold over_License_Licensing. rewrite E. cbn [behind option_map]. rewrite L1 by (rewrite ?Eg; reflexivity).
      rewrite <- E. destruct l; reflexivity.
    - intros o (l & g & -> & E) H. exists l, g. split; auto. split; auto. cbn in H. rewrite E in H.
      destruct (get g) as [q|]; [exists q; reflexivity|discriminate].
    Unshelve. all: exact false.
  Qed.
  Lemma license_1_5_does : does t (vptr reify_License) present
    (fun license => via license (fun l => clear (fld l (ix fields_License "Acknowledgement")));;
       ifp (at_ license (fun l => is_set (fld l (ix fields_License "Licensing"))))
         (hConvertParty sv license "Licensor";; hConvertParty sv license "Licensee";; hConvertParty sv license "Purchaser"))
    (behind (fun l => over_License_Licensing (behind (convertLicensing sv)) (set_License_Acknowledgement "" l))).
  Proof.
    eapply does_ext; [|eapply does_seq with (D' := present)].
    2: { repeat stmt. }
    2: { eapply (does_ifp t (vptr reify_License) present licensed).
         - eapply reads_weaken; [|eapply (reads_at t reify_License always); stmt]. intros o [y ->]. exists y. split; [auto|exact I].
         - eapply does_seq with (D' := licensed); [eapply party_does; hfield|eapply does_seq with (D' := licensed); [eapply party_does; hfield|eapply party_does; hfield|]|].
           + intros o (l & g & -> & E). cbn. eexists _, _. split; [reflexivity|]. unfold over_License_Licensing. rewrite E. reflexivity.
           + intros o (l & g & -> & E). cbn. eexists _, _. split; [reflexivity|]. unfold over_License_Licensing. rewrite E. reflexivity.
         - intros o [l ->] H. cbn in H. destruct (License_Licensing l) as [g|] eqn:E; [|discriminate]. exists l, g. auto. }
    2: { intros o [y ->]. cbn. eexists. reflexivity. }
    Unshelve. all: try exact false.
    intros o [l ->]. destruct l as [? ? ? ? ? ? g ?]. destruct g as [g|]; reflexivity.
  Qed.
  Lemma licenses_1_5_does : does t (vslice reify_LicenseChoice) always (hConvertLicenses_1_5 sv) (option_map (map (convertLicenseChoice_1_5 sv))).
  Proof.
    unfold hConvertLicenses_1_5. eapply does_ext; [|stmt; stmt; apply license_1_5_does]. reflexivity.
  Qed.
  Lemma licenses_1_6_does : does t (vslice reify_LicenseChoice) always hConvertLicenses_1_6 (option_map (map convertLicenseChoice_1_6)).
  Proof. unfold hConvertLicenses_1_6. eapply does_ext; [|repeat stmt]. reflexivity. Qed.
  Definition licenses_fun (s : slice LicenseChoice) : slice LicenseChoice :=
    when (sv_lt sv SpecVersion1_7) (option_map (map convertLicenseChoice_1_6))
      (when (sv_lt sv SpecVersion1_6) (option_map (map (convertLicenseChoice_1_5 sv)))
        (when (sv_lt sv SpecVersion1_5) (option_map (map convertLicenseChoice_1_4))
          (when (sv_lt sv SpecVersion1_1) convertLicenses_1_0 s))).
  Lemma licenses_does : does t (vslice reify_LicenseChoice) always (fun l => hConvertLicenses sv (Some l)) licenses_fun.
  Proof.
    unfold hConvertLicenses, unless_nil.
    eapply does_ext; [|repeat stmt; [apply licenses_1_0_does|apply licenses_1_4_does|apply licenses_1_5_does|apply licenses_1_6_does]]. reflexivity.
  Qed.
End Converters.
