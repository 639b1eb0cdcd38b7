(** Copying on memory, whole calls of EncodeVersion, and their interleavings. *)
From Coq Require Import Lia.
From Verif Require Import Base Types Univ TypeTable Reify ReifyBase ReifyFacts Wt Consts Version ConvertModel ConvertSpec ConvertProofs GobModel GobProofs
  HeapModel HeapSpec HeapLogic HeapFields HeapProofs HeapConvert HeapTools HeapBom.
Local Open Scope string_scope.
Local Open Scope prog_scope.
Local Open Scope list_scope.

(** ** Reading *)

Fixpoint height (v : val) : nat :=
  match v with
  | VPtr (Some x) => S (height x)
  | VSlice (Some l) | VStruct l => S (list_max (map height l))
  | _ => 1
  end.
Definition reachable (t : nat) (h : heap) : Prop := forall a, h a <> None -> fst a = 0 \/ fst a = t.

Lemma may_read t h a c : reachable t h -> h a = Some c -> (Nat.eqb (fst a) 0 || Nat.eqb (fst a) t)%bool = true.
Proof. intros H E. apply orb_true_iff. rewrite !Nat.eqb_eq. apply H. congruence. Qed.

Lemma run_each t {A B} (f : A -> prog B) h n xs ys :
  Forall2 (fun x y => run t (f x) h n = Some (y, h, n)) xs ys -> run t (each_of f xs) h n = Some (ys, h, n).
Proof.
  induction 1 as [|x y xs ys E _ IH]; cbn [each_of]; auto. rewrite run_bind, E, run_bind. 
  rewrite IH. reflexivity.
Qed.

Lemma list_max_in x l : In x l -> x <= list_max l.
Proof. induction l as [|y l IH]; cbn; [intros []|intros [->|H]]; [|specialize (IH H)]; unfold list_max in *; lia. Qed.

Lemma run_read t h n : reachable t h -> forall v c fuel, shows h c v -> height v <= fuel -> run t (read fuel c) h n = Some (v, h, n).
Proof.
  intros Hr. 
  assert (K : forall l cs fuel, Forall (fun v => forall c fuel, shows h c v -> height v <= fuel -> run t (read fuel c) h n = Some (v, h, n)) l ->
            Forall2 (shows h) cs l -> list_max (map height l) <= fuel -> run t (each_of (read fuel) cs) h n = Some (l, h, n)).
  { intros l cs fuel F H Hm. apply run_each. revert F Hm. induction H as [|c v cs vs Hc _ IH]; intros F Hm; constructor.
    - inversion F; subst. apply H1; auto. unfold list_max in Hm. cbn in Hm. lia.
    - inversion F; subst. apply IH; auto. unfold list_max in *. cbn in Hm. lia. }
  induction v as [s|z|b|f| |x IH| |l IH|vs IH] using val_induction; intros c fuel H Hh; destruct fuel as [|fuel];
    try (cbn [height] in Hh; lia); inversion H; subst; cbn [read]; try reflexivity.
  - cbn [run]. rewrite (may_read _ _ _ _ Hr H1), H1. cbn [get_path]. rewrite run_bind, (IH c0 fuel); auto. cbn [height] in Hh. lia.
  - cbn [run]. rewrite (may_read _ _ _ _ Hr H1), H1. cbn [get_path]. rewrite run_bind, (K l cs fuel); auto. cbn [height] in Hh. lia.
  - rewrite run_bind, (K vs cs fuel); auto. cbn [height] in Hh. lia.
Qed.

Lemma shows_rep h :
  (forall c v F, rep h c v F -> shows h c v) /\ (forall cs vs F, reps h cs vs F -> Forall2 (shows h) cs vs).
Proof.
  apply (rep_reps_ind h (fun c v F _ => shows h c v) (fun cs vs F _ => Forall2 (shows h) cs vs)); intros; try (econstructor; eauto; fail).
Qed.

(** ** Placing *)

Definition placed t h n c v h' n' : Prop :=
  exists F, rep h' c v F /\ NoDup F /\ (forall b, In b F -> fresh t n n' b) /\ n <= n' /\ forall b, ~ fresh t n n' b -> h' b = h b.
Definition placed_all t h n cs vs h' n' : Prop :=
  exists F, reps h' cs vs F /\ NoDup F /\ (forall b, In b F -> fresh t n n' b) /\ n <= n' /\ forall b, ~ fresh t n n' b -> h' b = h b.

Lemma fresh_apart t n n' n'' b : fresh t n n' b -> fresh t n' n'' b -> False.
Proof. unfold fresh. lia. Qed.
Lemma nodup_join {A} (F G : list A) : NoDup F -> NoDup G -> (forall b, In b F -> In b G -> False) -> NoDup (F ++ G).
Proof.
  induction F as [|x F IH]; cbn; auto. inversion 1; subst. intros HG HD. constructor.
  - rewrite in_app_iff. intros [?|?]; auto. apply (HD x); cbn; auto.
  - apply IH; auto. intros b ? ?. apply (HD b); cbn; auto.
Qed.
Lemma run_place t v : forall h n, exists c h' n', run t (place v) h n = Some (c, h', n') /\ placed t h n c v h' n'.
Proof.
  assert (K : forall l, Forall (fun v => forall h n, exists c h' n', run t (place v) h n = Some (c, h', n') /\ placed t h n c v h' n') l ->
            forall h n, exists cs h' n', run t (each_of place l) h n = Some (cs, h', n') /\ placed_all t h n cs l h' n').
  { clear v. induction l as [|v l IH]; intros HF h n.
    - exists [], h, n. split; [reflexivity|]. exists []. split; [constructor|]. split; [constructor|]. split; [intros b []|]. split; auto.
    - inversion HF as [|? ? H1 H2]; subst. destruct (H1 h n) as (c & h1 & n1 & E1 & F1 & R1 & N1 & I1 & L1 & U1).
      destruct (IH H2 h1 n1) as (cs & h2 & n2 & E2 & F2 & R2 & N2 & I2 & L2 & U2).
      exists (c :: cs), h2, n2. split.
      + cbn [each_of]. rewrite run_bind, E1, run_bind, E2. reflexivity.
      + exists (F1 ++ F2). split; [|split; [|split; [|split]]].
        * constructor; auto. eapply rep_frame; eauto. intros b Hb. apply U2. intros X. apply (fresh_apart t n n1 n2 b); auto.
        * apply nodup_join; auto. intros b X Y. apply (fresh_apart t n n1 n2 b); auto.
        * intros b Hb. apply in_app_or in Hb. eapply (fresh_later t n n1 n2); auto. destruct Hb; auto.
        * lia.
        * intros b Hb. rewrite U2, U1; auto; intros X; apply Hb; eapply (fresh_later t n n1 n2); auto. }
  induction v as [s|z|b|f| |x IH| |l IH|vs IH] using val_induction; intros h n; cbn [place];
    try (eexists _, h, n; split; [reflexivity|]; exists []; split; [constructor|]; split; [constructor|]; split; [intros ? []|]; split; auto; fail).
  - destruct (IH h n) as (c & h1 & n1 & E1 & F1 & R1 & N1 & I1 & L1 & U1).
    exists (HPtr (Some (t, n1))), (upd h1 (t, n1) c), (S n1). split; [rewrite run_bind, E1; reflexivity|].
    assert (Z : forall b, fresh t n n1 b -> b <> (t, n1)) by (intros b [? ?] ->; cbn in *; lia).
    exists ((t, n1) :: F1). split; [|split; [|split; [|split]]].
    + econstructor; [apply upd_same|]. eapply rep_frame; eauto. intros b Hb. apply upd_other. auto.
    + constructor; auto. intros X. eapply Z; eauto.
    + intros b [<-|Hb]; [unfold fresh; cbn; lia|]. destruct (I1 b Hb). split; auto; lia.
    + lia.
    + intros b Hb. rewrite upd_other; [apply U1|]; [intros [? ?]; apply Hb; split; auto; lia|intros ->; apply Hb; unfold fresh; cbn; lia].
  - destruct (K l IH h n) as (c & h1 & n1 & E1 & F1 & R1 & N1 & I1 & L1 & U1).
    exists (HSlice (Some (t, n1))), (upd h1 (t, n1) (HStruct c)), (S n1). split; [rewrite run_bind, E1; reflexivity|].
    assert (Z : forall b, fresh t n n1 b -> b <> (t, n1)) by (intros b [? ?] ->; cbn in *; lia).
    exists ((t, n1) :: F1). split; [|split; [|split; [|split]]].
    + econstructor; [apply upd_same|]. eapply reps_frame; eauto. intros b Hb. apply upd_other. auto.
    + constructor; auto. intros X. eapply Z; eauto.
    + intros b [<-|Hb]; [unfold fresh; cbn; lia|]. destruct (I1 b Hb). split; auto; lia.
    + lia.
    + intros b Hb. rewrite upd_other; [apply U1|]; [intros [? ?]; apply Hb; split; auto; lia|intros ->; apply Hb; unfold fresh; cbn; lia].
  - destruct (K vs IH h n) as (c & h1 & n1 & E1 & F1 & R1 & N1 & I1 & L1 & U1).
    exists (HStruct c), h1, n1. split; [rewrite run_bind, E1; reflexivity|]. exists F1. split; [constructor; auto|auto].
Qed.

(** ** One call *)

Lemma gob_trip_bom b : gob_trip (reify_BOM b) = Ok (reify_BOM (settle b)).
Proof.
  unfold gob_trip. pose proof (proj1 (arrives (reify_BOM b)) (TRef "BOM") eq_refl (typed_BOM b)) as A.
  change (van (reify_BOM b)) with false in A. cbv iota in A. destruct A as (w & S & R). rewrite S, R, reify_settle. reflexivity.
Qed.

Lemma call_runs t h b bom sv fuel : t <> 0 -> callers_only h -> bom_at h b bom ->
  shallow_bom fuel (settle bom) -> fuel <> 0 -> height (reify_BOM bom) <= fuel -> height (reify_BOM (convert sv (settle bom))) <= fuel ->
  exists h' n', run t (hEncodeVersion fuel sv b) h 0 = Some (Ok (reify_BOM (convert sv (settle bom))), h', n').
Proof.
  intros Ht Hc (c & Eb & Sh) Hs Hf Hh1 Hh2. unfold hEncodeVersion.
  assert (Hr : reachable t h) by (intros a Ha; left; auto).
  cbn [run]. rewrite (may_read _ _ _ _ Hr Eb), Eb. cbn [get_path]. rewrite run_bind, (run_read t h 0 Hr _ _ _ Sh Hh1), gob_trip_bom.
  rewrite run_bind. destruct (run_place t (reify_BOM (settle bom)) h 0) as (c' & h1 & n1 & -> & F & R & N & I & L & U).
  cbn [run]. rewrite run_bind.
  assert (Z : forall a, In a F -> a <> (t, n1)) by (intros a Ha ->; destruct (I _ Ha); cbn in *; lia).
  assert (Hh : holds t (upd h1 (t, n1) c') (S n1) (t, n1) c' [] c' (reify_BOM (settle bom)) F).
  { split; cbn; auto.
    - apply upd_same.
    - eapply rep_frame; eauto. intros a Ha. apply upd_other. auto.
    - intros X. eapply Z; eauto.
    - split; auto. intros a Ha. destruct (I _ Ha). split; auto; lia. }
  destruct fuel as [|fuel]; [congruence|].
  destruct (convert_does t sv fuel _ _ _ _ _ _ _ _ Hh Hs) as (h2 & n2 & c2 & F2 & -> & X).
  destruct X as [A1 A2 A3 A4 A5 A6].
  cbn [run]. cbn [put_path] in A2.
  assert (Hr2 : reachable t h2).
  { intros a Ha. destruct (addr_dec a (t, n1)) as [->|Na]; [right; reflexivity|].
    destruct (in_dec addr_dec a F) as [Hi|Hi]; [right; apply (I _ Hi)|].
    destruct (Nat.eq_dec (fst a) t); [auto|]. left.
    rewrite A6, upd_other, U in Ha; auto; intros [? ?]; auto. }
  rewrite (may_read _ _ _ _ Hr2 A2), A2. cbn [get_path]. rewrite run_bind.
  rewrite (run_read t h2 n2 Hr2 _ _ _ (proj1 (shows_rep h2) _ _ _ A3) Hh2). cbn [run]. eauto.
Qed.

(** ** Enough fuel *)

Lemma all_ex {A} (P : nat -> A -> Prop) (l : list A) : (forall x, exists n, P n x) -> (forall n m x, n <= m -> P n x -> P m x) ->
  exists n, Forall (P n) l.
Proof.
  intros H1 H2. induction l as [|x l [n IH]]; [exists 0; auto|]. destruct (H1 x) as [m Hm].
  exists (max m n). constructor; [eapply H2; [|exact Hm]; lia|]. eapply Forall_impl; [|exact IH]. intros; eapply H2; [|eauto]; lia.
Qed.
Lemma shallow_annotation_le n m a : n <= m -> shallow_annotation n a -> shallow_annotation m a.
Proof. intros L H x Hx s Hs. eapply shallow_service_le; [exact L|]. eapply H; eauto. Qed.
Lemma shallow_annotation_ex a : exists n, shallow_annotation n a.
Proof.
  destruct (Annotation_Annotator a) as [x|] eqn:E; [|exists 0; intros y Hy; congruence].
  destruct (Annotator_Service x) as [s|] eqn:E2; [|exists 0; intros y Hy s Hs; congruence].
  destruct (shallow_service_ex s) as [n Hn]. exists n. intros y Hy s' Hs. congruence.
Qed.
Lemma shallow_bom_le n m b : n <= m -> shallow_bom n b -> shallow_bom m b.
Proof.
  intros L (H1 & H2 & H3 & H4). split; [|split; [|split]].
  - intros x Hx c Hc. eapply shallow_component_le; [exact L|]. eapply H1; eauto.
  - unfold deep_components, all_shallow in *. intros s Hs. eapply Forall_impl; [|exact (H2 s Hs)]. intros; eapply shallow_component_le; eauto.
  - unfold deep_services, all_shallow_s in *. intros s Hs. eapply Forall_impl; [|exact (H3 s Hs)]. intros; eapply shallow_service_le; eauto.
  - intros s Hs. eapply Forall_impl; [|exact (H4 s Hs)]. intros; eapply shallow_annotation_le; eauto.
Qed.
Lemma shallow_bom_ex b : exists n, shallow_bom n b.
Proof.
  assert (M : exists n, deep_metadata n b).
  { destruct (BOM_Metadata b) as [m|] eqn:E; [|exists 0; intros x Hx; congruence].
    destruct (Metadata_Component m) as [c|] eqn:E2; [|exists 0; intros x Hx c Hc; congruence].
    destruct (shallow_component_ex c) as [n Hn]. exists n. intros x Hx c' Hc. congruence. }
  destruct M as [n1 H1].
  destruct (all_ex shallow_component (members (BOM_Components b)) shallow_component_ex shallow_component_le) as [n2 H2].
  destruct (all_ex shallow_service (members (BOM_Services b)) shallow_service_ex shallow_service_le) as [n3 H3].
  destruct (all_ex shallow_annotation (members (BOM_Annotations b)) shallow_annotation_ex shallow_annotation_le) as [n4 H4].
  exists (n1 + n2 + n3 + n4). split; [|split; [|split]].
  - intros x Hx c Hc. eapply shallow_component_le; [|eapply H1; eauto]. lia.
  - intros s Hs. rewrite Hs in H2. eapply Forall_impl; [|destruct s; [exact H2|constructor]]. intros; eapply shallow_component_le; [|eauto]; lia.
  - intros s Hs. rewrite Hs in H3. eapply Forall_impl; [|destruct s; [exact H3|constructor]]. intros; eapply shallow_service_le; [|eauto]; lia.
  - intros s Hs. rewrite Hs in H4. eapply Forall_impl; [|destruct s; [exact H4|constructor]]. intros; eapply shallow_annotation_le; [|eauto]; lia.
Qed.

Lemma call_runs_ex bom sv : exists N, forall fuel h b t, N <= fuel -> t <> 0 -> callers_only h -> bom_at h b bom ->
  exists h' n', run t (hEncodeVersion fuel sv b) h 0 = Some (Ok (reify_BOM (convert sv (settle bom))), h', n').
Proof.
  destruct (shallow_bom_ex (settle bom)) as [n Hn].
  exists (S (n + height (reify_BOM bom) + height (reify_BOM (convert sv (settle bom))))).
  intros fuel h b t Hf Ht Hc Hb. eapply call_runs; eauto; try lia. eapply shallow_bom_le; [|exact Hn]. lia.
Qed.

(** ** Goroutines *)

Fixpoint cost {A} (t : nat) (P : prog A) (h : heap) (n : nat) : nat :=
  match P with
  | Load (a, p) k => match h a with Some c => match get_path c p with Some v => S (cost t (k v) h n) | None => 0 end | None => 0 end
  | Store (a, p) v P' =>
      match h a with Some c => match get_path c p with Some _ => S (cost t P' (upd h a (put_path c p v)) n) | None => 0 end | None => 0 end
  | Alloc c k => S (cost t (k (t, n)) (upd h (t, n) c) (S n))
  | Ret _ | Crash | Loop => 0
  end.
Definition agree (t : nat) (h g : heap) : Prop := forall a, fst a = 0 \/ fst a = t -> g a = h a.
Lemma agree_upd t h g a c : agree t h g -> agree t (upd h a c) (upd g a c).
Proof. intros H b Hb. unfold upd. destruct (addr_eqb a b); auto. Qed.

Lemma run_agree {A} t (P : prog A) : forall h n r h' n' g, run t P h n = Some (r, h', n') -> agree t h g ->
  (exists g' m', run t P g n = Some (r, g', m')) /\ cost t P g n = cost t P h n.
Proof.
  induction P as [a|[a p] k' IH|[a p] v P' IH|c k' IH| |]; intros h n r h' n' g H Ha; cbn in *; try discriminate.
  - inversion H; subst. eauto.
  - destruct (_ || _)%bool eqn:E; [|discriminate]. apply orb_true_iff in E. rewrite !Nat.eqb_eq in E. rewrite (Ha a E).
    destruct (h a); [|discriminate]. destruct (get_path h0 p); [|discriminate]. destruct (IH _ _ _ _ _ _ g H Ha) as [? ->]. auto.
  - destruct (Nat.eqb (fst a) t) eqn:E; [|discriminate]. apply Nat.eqb_eq in E. rewrite (Ha a (or_intror E)).
    destruct (h a); [|discriminate]. destruct (get_path h0 p); [|discriminate].
    destruct (IH _ _ _ _ _ (upd g a (put_path h0 p v)) H (agree_upd _ _ _ _ _ Ha)) as [? ->]. auto.
  - destruct (IH _ _ _ _ _ _ (upd g (t, n) c) H (agree_upd _ _ _ _ _ Ha)) as [? ->]. auto.
Qed.

Lemma run_step {A} t (P : prog A) h n r h' n' : run t P h n = Some (r, h', n') ->
  (P = Ret r /\ step t P n h = None /\ cost t P h n = 0) \/
  (exists P' n2 h2, step t P n h = Some (P', n2, h2) /\ run t P' h2 n2 = Some (r, h', n') /\ cost t P h n = S (cost t P' h2 n2) /\
     forall a, fst a <> t -> h2 a = h a).
Proof.
  destruct P as [a|[a p] k'|[a p] v P'|c k'| |]; intros H; cbn in *; try discriminate.
  - inversion H; subst. auto.
  - destruct (_ || _)%bool; [|discriminate]. destruct (h a); [|discriminate]. destruct (get_path h0 p); [|discriminate].
    right. do 3 eexists. split; [reflexivity|]. auto.
  - destruct (Nat.eqb (fst a) t) eqn:E; [|discriminate]. apply Nat.eqb_eq in E. destruct (h a); [|discriminate]. destruct (get_path h0 p); [|discriminate].
    right. do 3 eexists. split; [reflexivity|]. split; [auto|]. split; [auto|]. intros b Hb. apply upd_other. congruence.
  - right. do 3 eexists. split; [reflexivity|]. split; [auto|]. split; [auto|]. intros b Hb. apply upd_other. intros ->. auto.
Qed.

(** Every goroutine is on its way to its result, [B i] steps away from it. *)
Definition on_course {A} (h0 : heap) (rs : list A) (B : nat -> nat) (ps : pool A) (h : heap) : Prop :=
  (forall a, fst a = 0 -> h a = h0 a) /\ length ps = length rs /\
  forall i P n, nth_error ps i = Some (P, n) -> exists r h' n', nth_error rs i = Some r /\ run (S i) P h n = Some (r, h', n') /\ cost (S i) P h n = B i.

Lemma pool_on_course {A} h0 (rs : list A) B ps h t : on_course h0 rs B ps h ->
  on_course h0 rs (fun i => B i - (if Nat.eqb i t then 1 else 0)) (fst (pool_step t ps h)) (snd (pool_step t ps h)).
Proof.
  intros (H1 & H2 & H3). unfold pool_step.
  destruct (nth_error ps t) as [[P n]|] eqn:E.
  2: { split; [auto|]. split; [auto|]. intros i Q m Hi. cbn in Hi. destruct (Nat.eqb_spec i t) as [->|]; [congruence|]. rewrite Nat.sub_0_r. auto. }
  destruct (H3 t P n E) as (r & h' & n' & E1 & E2 & E3).
  destruct (run_step _ _ _ _ _ _ _ E2) as [(-> & -> & C)|(P' & n2 & h2 & -> & R & C & U)].
  - split; [auto|]. split; [auto|]. intros i Q m Hi. cbn in Hi. destruct (H3 i Q m Hi) as (r' & h1 & n1 & X1 & X2 & X3).
    exists r', h1, n1. split; [auto|]. split; [auto|]. destruct (Nat.eqb_spec i t) as [->|]; cbn [snd]; lia.
  - split; [intros a Ha; cbn; rewrite U by congruence; auto|]. split; [cbn; rewrite length_replace; auto|].
    intros i Q m Hi. cbn in Hi. destruct (Nat.eqb_spec i t) as [->|Ni].
    + rewrite nth_replace in Hi by congruence. inversion Hi; subst. exists r, h', n'. cbn [snd]. split; [auto|]. split; [auto|]. lia.
    + rewrite nth_replace_other in Hi by congruence. destruct (H3 i Q m Hi) as (r' & h1 & n1 & X1 & X2 & X3).
      assert (Ag : agree (S i) h h2) by (intros a [Ha|Ha]; apply U; congruence).
      destruct (run_agree _ _ _ _ _ _ _ h2 X2 Ag) as [(g' & m' & Y1) Y2].
      exists r', g', m'. split; [auto|]. split; [auto|]. cbn [snd]. lia.
Qed.
Lemma run_pool_on_course {A} h0 (rs : list A) schedule : forall B ps h, on_course h0 rs B ps h ->
  on_course h0 rs (fun i => B i - count_occ Nat.eq_dec schedule i) (fst (run_pool schedule ps h)) (snd (run_pool schedule ps h)).
Proof.
  induction schedule as [|t schedule IH]; intros B ps h H; cbn [run_pool].
  - cbn. destruct H as (H1 & H2 & H3). split; [auto|]. split; [auto|]. intros i P n Hi. rewrite Nat.sub_0_r. auto.
  - pose proof (pool_on_course _ _ _ _ _ t H) as X. destruct (pool_step t ps h) as [ps' h']. cbn [fst snd] in X.
    destruct (IH _ _ _ X) as (Y1 & Y2 & Y3). split; [auto|]. split; [auto|]. intros i P n Hi. destruct (Y3 _ _ _ Hi) as (r & h1 & n1 & Z1 & Z2 & Z3).
    exists r, h1, n1. split; [auto|]. split; [auto|]. rewrite Z3. cbn [count_occ]. destruct (Nat.eqb_spec i t) as [->|N].
    + destruct (Nat.eq_dec t t); [lia|congruence].
    + destruct (Nat.eq_dec t i); [congruence|lia].
Qed.
Lemma on_course_end {A} h0 (rs : list A) B ps h i r : on_course h0 rs B ps h -> nth_error rs i = Some r -> B i = 0 -> exists n, nth_error ps i = Some (Ret r, n).
Proof.
  intros (H1 & H2 & H3) Hr HB. destruct (nth_error ps i) as [[P n]|] eqn:E.
  - destruct (H3 _ _ _ E) as (r' & h' & n' & X1 & X2 & X3). exists n. rewrite Hr in X1. inversion X1; subst.
    destruct (run_step _ _ _ _ _ _ _ X2) as [(-> & _)|(P' & n2 & h2 & _ & _ & C & _)]; [auto|lia].
  - exfalso. apply nth_error_None in E. rewrite H2 in E. apply nth_error_None in E. congruence.
Qed.

(** ** Calls together *)

Lemma Forall2_same_length {A B} (P : A -> B -> Prop) l l' : Forall2 P l l' -> length l = length l'.
Proof. induction 1; cbn; auto. Qed.
Definition answer_of (sv : SpecVersion) (bom : BOM) : result string val := Ok (reify_BOM (convert sv (settle bom))).
Lemma start_on_course h0 (calls : list call_of) boms : callers_only h0 -> Forall2 (fun c bom => bom_at h0 (snd c) bom) calls boms ->
  exists N, forall fuel, N <= fuel -> exists B, on_course h0 (map (fun cb => answer_of (fst (fst cb)) (snd cb)) (combine calls boms)) B (start fuel calls) h0.
Proof.
  intros Hc H.
  assert (K : exists N, forall fuel, N <= fuel -> forall i c bom, nth_error calls i = Some c -> nth_error boms i = Some bom ->
              exists h' n', run (S i) (hEncodeVersion fuel (fst c) (snd c)) h0 0 = Some (answer_of (fst c) bom, h', n')).
  { assert (Q : exists N, forall fuel, N <= fuel -> forall c bom, In (c, bom) (combine calls boms) -> forall t, t <> 0 ->
              exists h' n', run t (hEncodeVersion fuel (fst c) (snd c)) h0 0 = Some (answer_of (fst c) bom, h', n')).
    { induction H as [|c bom cs bs Hb _ [N IH]]; [exists 0; intros ? ? ? ? []|].
      destruct (call_runs_ex bom (fst c)) as [M HM]. exists (max N M). intros fuel Hf c' bom' [[= <- <-]|Hi] t Ht.
      - eapply HM; eauto. lia.
      - eapply IH; eauto. lia. }
    destruct Q as [N Q]. exists N. intros fuel Hf i c bom H1 H2. apply Q; auto.
    clear - H1 H2. revert i boms H1 H2. induction calls as [|x l IH]; intros [|i] [|y l'] H1 H2; cbn in *; try discriminate; [left; congruence|right; eauto]. }
  destruct K as [N K]. exists N. intros fuel Hf.
  exists (fun i => match nth_error (start fuel calls) i with Some (P, n) => cost (S i) P h0 n | None => 0 end).
  split; [auto|]. pose proof (Forall2_same_length _ _ _ H) as L. split.
  { unfold start. rewrite !map_length, combine_length. lia. }
  intros i P n Hi. unfold start in Hi. rewrite nth_error_map in Hi. destruct (nth_error calls i) as [c|] eqn:Ec; cbn in Hi; [|discriminate].
  inversion Hi; subst.
  destruct (nth_error boms i) as [bom|] eqn:Eb; [|apply nth_error_None in Eb; assert (i < length calls) by (apply nth_error_Some; congruence); lia].
  destruct (K fuel Hf i c bom Ec Eb) as (h' & n' & R). exists (answer_of (fst c) bom), h', n'. split; [|split; [auto|]].
  - rewrite nth_error_map.
    assert (nth_error (combine calls boms) i = Some (c, bom)) as ->; [|reflexivity].
    clear - Ec Eb. revert i boms Ec Eb. induction calls as [|x l IH]; intros [|i] [|y l'] H1 H2; cbn in *; try discriminate; [congruence|eauto].
  - unfold start. rewrite nth_error_map, Ec. reflexivity.
Qed.

Lemma nth_combine {A B} (l : list A) (l' : list B) i x y : nth_error l i = Some x -> nth_error l' i = Some y -> nth_error (combine l l') i = Some (x, y).
Proof. revert i l'. induction l as [|z l IH]; intros [|i] [|w l'] H1 H2; cbn in *; try discriminate; [congruence|auto]. Qed.

(** ** What the caller sees *)

Lemma shows_same h g : callers_only h -> (forall a, fst a = 0 -> g a = h a) -> forall v c, shows h c v -> shows g c v.
Proof.
  intros Hc Hg.
  assert (K : forall a c, h a = Some c -> g a = Some c) by (intros a c E; rewrite Hg; auto; apply Hc; congruence).
  assert (L : forall l cs, Forall (fun v => forall c, shows h c v -> shows g c v) l -> Forall2 (shows h) cs l -> Forall2 (shows g) cs l).
  { intros l cs HF H. induction H as [|c v cs vs X _ IH]; constructor; inversion HF; subst; auto. }
  induction v as [s|z|b|f| |x IH| |l IH|vs IH] using val_induction; intros c H; inversion H; subst; econstructor; eauto.
Qed.
Lemma bom_at_same h g : callers_only h -> (forall a, fst a = 0 -> g a = h a) -> forall b bom, bom_at h b bom -> bom_at g b bom.
Proof.
  intros Hc Hg b bom (c & E & S). exists c. split; [rewrite Hg; auto; apply Hc; congruence|eapply shows_same; eauto].
Qed.
Lemma every_bom_placed bom : exists h b, callers_only h /\ bom_at h b bom.
Proof.
  destruct (run_place 0 (reify_BOM bom) (fun _ => None) 0) as (c & h & n & _ & F & R & _ & I & _ & U).
  exists (upd h (0, n) c), (0, n). split.
  - intros a Ha. destruct (addr_dec a (0, n)) as [->|N]; [reflexivity|]. rewrite upd_other in Ha by auto.
    destruct (Nat.eq_dec (fst a) 0); auto. exfalso. apply Ha, U. intros [? _]; auto.
  - exists c. split; [apply upd_same|]. eapply shows_rep. eapply rep_frame; eauto. intros a Ha. apply upd_other. intros ->. destruct (I _ Ha) as [_ ?]. cbn in *. lia.
Qed.
