(** Tools on memory: before 1.5 components and services become tools that share the memory
    of the components and services they were made from. *)
From Coq Require Import Lia.
From Verif Require Import Base Types Univ TypeTable Reify Consts Version ConvertModel ConvertSpec ConvertProofs GobModel HeapModel HeapLogic HeapFields HeapProofs HeapConvert.
Local Open Scope string_scope.
Local Open Scope prog_scope.
Local Open Scope list_scope.

(** [body], given the address of a variable with value [x], makes a cell for [g x] out of
    the memory behind it and changes nothing. *)
Definition takes {T U} (t : nat) (R : T -> val) (R' : U -> val) (body : loc -> prog (option hval)) (g : T -> U) : Prop :=
  forall h n a c0 p c x F, holds t h n a c0 p c (R x) F ->
    exists d G, run t (body (a, p)) h n = Some (Some d, h, n) /\ rep h d (R' (g x)) G /\ NoDup G /\ incl G F.

Lemma takes_self {T} t (R : T -> val) : takes t R R (fun x => Load x (fun v => Ret (Some v))) (fun x => x).
Proof.
  intros h n a c0 p c x F Hh. exists c, F. rewrite (run_load _ _ _ _ _ _ _ _ _ _ Hh). destruct Hh as [_ _ _ _ Hr _ [N _]].
  split; [reflexivity|]. split; auto. split; auto. intros y Y; exact Y.
Qed.

Lemma nodup_app {A} (l m : list A) : NoDup l -> NoDup m -> (forall x, In x l -> ~ In x m) -> NoDup (l ++ m).
Proof.
  induction 1 as [|x l Hx Hl IH]; cbn; auto. intros Hm Hd. constructor.
  - rewrite in_app_iff. intros [?|?]; auto; apply (Hd x); cbn; auto.
  - apply IH; auto.
Qed.
Lemma nodup_app_disjoint {A} (l m : list A) x : NoDup (l ++ m) -> In x l -> ~ In x m.
Proof.
  induction l as [|y l IH]; cbn; [intros _ []|]. inversion 1; subst. intros [->|X]; auto.
  intros Y. apply H2. rewrite in_app_iff. auto.
Qed.

Lemma gather_takes {T U} t (R : T -> val) (R' : U -> val) body g : takes t R R' body g ->
  forall l h n b cs done G, fst b = t -> snd b < n -> h b = Some (HStruct (done ++ cs)) ->
    reps h cs (map R l) G -> ~ In b G -> owned t n G ->
    exists ds G', run t (gather (length done) (length l) (fun i => body (b, [i]))) h n = Some (ds, h, n) /\
      reps h ds (map R' (map g l)) G' /\ NoDup G' /\ incl G' G.
Proof.
  intros Ht. induction l as [|x l IH]; intros h n b cs done G B1 B2 B3 Hcs Hnb Ho.
  - inversion Hcs; subst. exists [], []. split; [reflexivity|]. split; [constructor|]. split; [constructor|]. intros ? [].
  - inversion Hcs as [|c v F cs0 vs G0 Hc Hcs' E1 E2]; subst.
    assert (Hh : holds (fst b) h n b (HStruct (done ++ c :: cs0)) [length done] c (R x) F).
    { split; auto.
      - cbn. rewrite nth_error_app2, Nat.sub_diag by lia. auto.
      - intros X. apply Hnb. rewrite in_app_iff; auto.
      - eapply (owned_part _ _ [] F G0). auto. }
    destruct (Ht _ _ _ _ _ _ _ _ Hh) as (d & K & Q1 & Q2 & Q3 & Q4).
    destruct Ho as [N O].
    destruct (IH h n b cs0 (done ++ [c]) G0) as (ds & G' & W1 & W2 & W3 & W4); auto.
    { rewrite <- app_assoc. exact B3. }
    { intros X. apply Hnb. rewrite in_app_iff; auto. }
    { split; [eapply NoDup_app_remove_l; eauto|]. intros y Y. apply O. rewrite in_app_iff; auto. }
    exists (d :: ds), (K ++ G'). split; [|split; [|split]].
    + change (run (fst b) (and_then (body (b, [length done])) (fun o => and_then (gather (S (length done)) (length l) (fun i => body (b, [i])))
                (fun l => Ret (match o with Some v => v :: l | None => l end)))) h n = Some (d :: ds, h, n)).
      rewrite run_bind, Q1. rewrite run_bind. rewrite app_length in W1. cbn in W1. rewrite Nat.add_comm in W1. cbn in W1. rewrite W1. reflexivity.
    + cbn. constructor; auto.
    + apply nodup_app; auto. intros y Y Z. eapply nodup_app_disjoint; [exact N|apply Q4, Y|apply W4, Z].
    + intros y. rewrite !in_app_iff. intros [Y|Y]; [left; apply Q4, Y|right; apply W4, Y].
Qed.
Lemma collect_takes {T U} t (R : T -> val) (R' : U -> val) body g h n a c0 p c x F : takes t R R' body g ->
  holds t h n a c0 p c (vslice R x) F ->
  exists ds G', run t (collect (a, p) body) h n = Some (ds, h, n) /\
    reps h ds (map R' (map g (elems x))) G' /\ NoDup G' /\ incl G' F.
Proof.
  intros Ht Hh. unfold collect. rewrite !run_bind, (run_elements _ _ _ _ _ _ _ _ _ _ Hh).
  pose proof (holds_range _ _ _ _ _ _ _ _ _ _ Hh) as Q. destruct x as [l|].
  - destruct Q as (b & cs & G & -> & -> & B1 & B2 & B3). destruct Hh as [H1 H2 H3 H4 H5 H6 [N O]]. inversion N as [|? ? N1 N2]; subst.
    destruct (O b) as [O1 O2]; [cbn; auto|].
    destruct (gather_takes _ R R' body g Ht l h n b cs [] G) as (ds & G' & W1 & W2 & W3 & W4); auto.
    { split; auto. intros; apply O; cbn; auto. }
    exists ds, G'. split; [exact W1|]. split; auto. split; auto. intros y Y. right. apply W4, Y.
  - destruct Q as [-> ->]. exists [], []. split; [reflexivity|]. split; [constructor|]. split; [constructor|]. intros ? [].
Qed.
Lemma gather_from_takes {T U} t (R : T -> val) (R' : U -> val) body g h n a c0 p c x F : takes t R R' body g ->
  holds t h n a c0 p c (vptr (vslice R) x) F ->
  exists ds G', run t (gather_from (a, p) body) h n = Some (ds, h, n) /\
    reps h ds (map R' (map g (ptr_elems x))) G' /\ NoDup G' /\ incl G' F.
Proof.
  intros Ht Hh. unfold gather_from, deref, load_ptr. rewrite !run_bind, (run_load _ _ _ _ _ _ _ _ _ _ Hh). destruct x as [s|].
  - pose proof Hh as [H1 H2 H3 H4 H5 H6 [N O]]. inversion H5 as [| | | | |b d v G Hb HG| | |]; subst. cbn [run].
    inversion N as [|? ? N1 N2]; subst. destruct (O b) as [O1 O2]; [cbn; auto|].
    rewrite !run_bind, (run_load _ _ _ _ _ _ _ _ _ _ Hh). cbn [run star].
    assert (Hs : holds (fst a) h n b d [] d (vslice R s) G).
    { split; auto. split; auto. intros; apply O; cbn; auto. }
    destruct (collect_takes _ R R' body g _ _ _ _ _ _ _ _ Ht Hs) as (ds & G' & W1 & W2 & W3 & W4).
    exists ds, G'. split; [exact W1|]. split; auto. split; auto. intros y Y. right. apply W4, Y.
  - pose proof (ho_rep _ _ _ _ _ _ _ _ _ Hh) as X. inversion X; subst. exists [], []. split; [reflexivity|]. split; [constructor|]. split; [constructor|]. intros ? [].
Qed.

Lemma reps_in h cs vs F i v : reps h cs vs F -> nth_error vs i = Some v ->
  exists c G, nth_error cs i = Some c /\ rep h c v G /\ incl G F /\ (NoDup F -> NoDup G).
Proof.
  intros H E. destruct (reps_split _ _ _ _ _ _ H E) as (c & F1 & Fi & F2 & E1 & -> & E2 & _).
  exists c, Fi. split; auto. split; auto. split.
  - intros y Y. rewrite !in_app_iff; auto.
  - intros N. apply NoDup_app_remove_l in N. eapply NoDup_app_remove_r; eauto.
Qed.
Lemma reps_two h cs vs F i j v w : reps h cs vs F -> i < j -> nth_error vs i = Some v -> nth_error vs j = Some w ->
  exists c d Fi Fj, nth_error cs i = Some c /\ nth_error cs j = Some d /\ rep h c v Fi /\ rep h d w Fj /\
    incl Fi F /\ incl Fj F /\ (NoDup F -> NoDup (Fi ++ Fj)).
Proof.
  intros H. revert i j. induction H as [|c u F cs vs G Hc Hcs IH]; intros i j L; [destruct i; discriminate|].
  destruct j as [|j]; [lia|]. destruct i as [|i]; cbn.
  - intros [= ->] Ej. destruct (reps_in _ _ _ _ _ _ Hcs Ej) as (d & Gj & Q1 & Q2 & Q3 & Q4).
    exists c, d, F, Gj. do 4 (split; auto). split; [intros y Y; rewrite in_app_iff; auto|]. split; [intros y Y; rewrite in_app_iff; auto|].
    intros N. apply nodup_app; [eapply NoDup_app_remove_r; eauto|apply Q4; eapply NoDup_app_remove_l; eauto|].
    intros y Y Z. eapply nodup_app_disjoint; [exact N|exact Y|apply Q3, Z].
  - intros Ei Ej. destruct (IH i j ltac:(lia) Ei Ej) as (c' & d & Fi & Fj & Q1 & Q2 & Q3 & Q4 & Q5 & Q6 & Q7).
    exists c', d, Fi, Fj. do 4 (split; auto). split; [intros y Y; rewrite in_app_iff; auto|]. split; [intros y Y; rewrite in_app_iff; auto|].
    intros N. apply Q7. eapply NoDup_app_remove_l; eauto.
Qed.

(** The cell of a field of the struct at (a, p). *)
Lemma field_cell {T U} t (R : T -> val) i (R' : U -> val) get over h n a c0 p cs x F : is_field R i R' get over ->
  holds t h n a c0 p (HStruct cs) (R x) F -> exists c' F', nth_error cs i = Some c' /\ rep h c' (R' (get x)) F' /\ holds t h n a c0 (p ++ [i]) c' (R' (get x)) F'.
Proof.
  intros Hf Hh. destruct (field_holds t R i R' get over Hf _ _ _ _ _ _ _ _ Hh) as (c' & F' & H & _).
  exists c', F'. split; [|split; auto; apply H]. pose proof (ho_path _ _ _ _ _ _ _ _ _ H) as Q. rewrite get_path_app, (ho_path _ _ _ _ _ _ _ _ _ Hh) in Q.
  cbn in Q. destruct (nth_error cs i); auto; discriminate.
Qed.
Lemma run_field {A} t h n a c0 p c v F (k : hval -> prog A) i : holds t h n a c0 (p ++ [i]) c v F -> run t (Load (fld (a, p) i) k) h n = run t (k c) h n.
Proof. intros H. exact (run_load _ _ _ _ _ _ _ _ _ _ H). Qed.
Lemma holds_struct {T} t (R : T -> val) h n a c0 p c x F : holds t h n a c0 p c (R x) F -> (exists vs, R x = VStruct vs) ->
  exists cs vs, c = HStruct cs /\ R x = VStruct vs /\ reps h cs vs F.
Proof. intros Hh [vs E]. pose proof (ho_rep _ _ _ _ _ _ _ _ _ Hh) as Q. rewrite E in Q. inversion Q; subst. eauto. Qed.

Lemma run_ret {A} t (x : A) h n : run t (Ret x) h n = Some (x, h, n).
Proof. reflexivity. Qed.

(** if x.F != nil { s = x.F.Name } else { s = dflt } *)
Lemma vendor_reads t h n a c0 p c o F dflt : holds t h n a c0 p c (vptr reify_OrganizationalEntity o) F ->
  run t (b <- is_set (a, p);; (if b then s <- deref (a, p);; load_str (fld s (ix fields_OrganizationalEntity "Name")) else Ret dflt)) h n =
  Some (match o with Some s => OrganizationalEntity_Name s | None => dflt end, h, n).
Proof.
  intros Hh. rewrite run_bind. pose proof (reads_set t reify_OrganizationalEntity _ _ _ _ _ _ _ _ Hh I) as E. rewrite E. destruct o as [s|]; [|reflexivity]. cbn [set_p].
  destruct (ptr_holds t reify_OrganizationalEntity _ _ _ _ _ _ _ _ Hh) as (b & d & G & -> & H1 & _).
  unfold deref, load_ptr. rewrite !run_bind, (run_load _ _ _ _ _ _ _ _ _ _ Hh). cbn [run star].
  destruct (field_holds t _ _ _ _ _ at_OrganizationalEntity_Name _ _ _ _ _ _ _ _ H1) as (c' & F' & H2 & _).
  unfold load_str. rewrite (run_field _ _ _ _ _ _ _ _ _ _ _ H2). pose proof (ho_rep _ _ _ _ _ _ _ _ _ H2) as Q. inversion Q; subst. reflexivity.
Qed.

Section Takes.
  Variable t : nat.

  Lemma component_takes : takes t reify_Component reify_Tool hComponentToTool convertComponentToTool.
  Proof.
    intros h n a c0 p c x F Hh.
    assert (Ex : exists vs, reify_Component x = VStruct vs) by (destruct x; eexists; reflexivity).
    destruct (holds_struct _ _ _ _ _ _ _ _ _ _ Hh Ex) as (cs & vs & -> & Ev & Hr).
    destruct (field_cell _ _ _ _ _ _ _ _ _ _ _ _ _ _ at_Component_Author Hh) as (k1 & K1 & _ & R1 & Q1).
    destruct (field_cell _ _ _ _ _ _ _ _ _ _ _ _ _ _ at_Component_Name Hh) as (k2 & K2 & _ & R2 & Q2).
    destruct (field_cell _ _ _ _ _ _ _ _ _ _ _ _ _ _ at_Component_Version Hh) as (k3 & K3 & _ & R3 & Q3).
    destruct (field_cell _ _ _ _ _ _ _ _ _ _ _ _ _ _ at_Component_Hashes Hh) as (k4 & K4 & E4 & R4 & Q4).
    destruct (field_cell _ _ _ _ _ _ _ _ _ _ _ _ _ _ at_Component_ExternalReferences Hh) as (k5 & K5 & E5 & R5 & Q5).
    destruct (field_cell _ _ _ _ _ _ _ _ _ _ _ _ _ _ at_Component_Supplier Hh) as (k6 & K6 & _ & R6 & Q6).
    destruct (at_Component_Hashes x) as ((vs1 & V1 & W1 & _) & _). rewrite Ev in V1. injection V1 as <-.
    destruct (at_Component_ExternalReferences x) as ((vs1 & V1 & W2 & _) & _). rewrite Ev in V1. injection V1 as <-.
    assert (Lij : ix fields_Component "Hashes" < ix fields_Component "ExternalReferences") by (vm_compute; lia).
    destruct (reps_two _ _ _ _ _ _ _ _ Hr Lij W1 W2) as (k4' & k5' & L4 & L5 & E4' & E5' & R4' & R5' & I4 & I5 & N45).
    rewrite E4 in E4'. injection E4' as <-. rewrite E5 in E5'. injection E5' as <-.
    inversion R1; subst. inversion R2; subst. inversion R3; subst.
    exists (HStruct [HStr (match Component_Supplier x with Some s => OrganizationalEntity_Name s | None => Component_Author x end); HStr (Component_Name x); HStr (Component_Version x); k4; k5]), (L4 ++ L5).
    split; [|split; [|split]].
    - unfold hComponentToTool. cbv zeta. rewrite run_bind. unfold load_str at 1. rewrite (run_field _ _ _ _ _ _ _ _ _ _ _ Q1). cbv beta iota. rewrite run_ret. cbv beta iota.
      rewrite (run_field _ _ _ _ _ _ _ _ _ _ _ Q2), (run_field _ _ _ _ _ _ _ _ _ _ _ Q3), (run_field _ _ _ _ _ _ _ _ _ _ _ Q4), (run_field _ _ _ _ _ _ _ _ _ _ _ Q5).
      pose proof (vendor_reads t _ _ _ _ _ _ _ _ (Component_Author x) Q6) as V. rewrite run_bind in V.
      change (fld (a, p) (ix fields_Component "Supplier")) with (a, p ++ [ix fields_Component "Supplier"]). rewrite run_bind.
      destruct (run t (is_set _) h n) as [[[b h1] n1]|]; [|discriminate].
      rewrite run_bind, V. reflexivity.
    - apply rep_struct. cbn. change (L4 ++ L5) with ([] ++ L4 ++ L5). constructor; [constructor|].
      change (L4 ++ L5) with ([] ++ L4 ++ L5). constructor; [constructor|]. change (L4 ++ L5) with ([] ++ L4 ++ L5). constructor; [constructor|].
      constructor; [exact R4'|]. rewrite <- (app_nil_r L5). constructor; [exact R5'|constructor].
    - apply N45, (ho_own _ _ _ _ _ _ _ _ _ Hh).
    - intros y. rewrite in_app_iff. intros [Y|Y]; auto.
  Qed.
  Lemma service_takes : takes t reify_Service reify_Tool hServiceToTool convertServiceToTool.
  Proof.
    intros h n a c0 p c x F Hh.
    assert (Ex : exists vs, reify_Service x = VStruct vs) by (destruct x; eexists; reflexivity).
    destruct (holds_struct _ _ _ _ _ _ _ _ _ _ Hh Ex) as (cs & vs & -> & Ev & Hr).
    destruct (field_cell _ _ _ _ _ _ _ _ _ _ _ _ _ _ at_Service_Name Hh) as (k2 & K2 & _ & R2 & Q2).
    destruct (field_cell _ _ _ _ _ _ _ _ _ _ _ _ _ _ at_Service_Version Hh) as (k3 & K3 & _ & R3 & Q3).
    destruct (field_cell _ _ _ _ _ _ _ _ _ _ _ _ _ _ at_Service_ExternalReferences Hh) as (k5 & K5 & E5 & R5 & Q5).
    destruct (field_cell _ _ _ _ _ _ _ _ _ _ _ _ _ _ at_Service_Provider Hh) as (k6 & K6 & _ & R6 & Q6).
    destruct (at_Service_ExternalReferences x) as ((vs1 & V1 & W2 & _) & _). rewrite Ev in V1. injection V1 as <-.
    destruct (reps_in _ _ _ _ _ _ Hr W2) as (k5' & L5 & E5' & R5' & I5 & N5).
    rewrite E5 in E5'. injection E5' as <-.
    inversion R2; subst. inversion R3; subst.
    exists (HStruct [HStr (match Service_Provider x with Some s => OrganizationalEntity_Name s | None => "" end); HStr (Service_Name x); HStr (Service_Version x); nil_ptr; k5]), L5.
    split; [|split; [|split]].
    - unfold hServiceToTool. cbv zeta.
      rewrite (run_field _ _ _ _ _ _ _ _ _ _ _ Q2), (run_field _ _ _ _ _ _ _ _ _ _ _ Q3), (run_field _ _ _ _ _ _ _ _ _ _ _ Q5).
      pose proof (vendor_reads t _ _ _ _ _ _ _ _ "" Q6) as V. rewrite run_bind in V.
      change (fld (a, p) (ix fields_Service "Provider")) with (a, p ++ [ix fields_Service "Provider"]). rewrite run_bind.
      destruct (run t (is_set _) h n) as [[[b h1] n1]|]; [|discriminate].
      rewrite run_bind, V. reflexivity.
    - apply rep_struct. cbn. change L5 with ([] ++ L5). constructor; [constructor|].
      change L5 with ([] ++ L5). constructor; [constructor|]. change L5 with ([] ++ L5). constructor; [constructor|].
      change L5 with ([] ++ L5). constructor; [constructor|].
      rewrite <- (app_nil_r L5). constructor; [exact R5'|constructor].
    - apply N5, (ho_own _ _ _ _ _ _ _ _ _ Hh).
    - exact I5.
  Qed.

End Takes.

  Lemma run_drop {T} t (R : T -> val) h n a c0 q c o F : holds t h n a c0 q c (vptr R o) F ->
    exists h1, run t (ifp (is_set (a, q)) (set_nil (a, q))) h n = Some (tt, h1, n) /\ h1 a = Some (put_path c0 q nil_ptr) /\ forall b, b <> a -> h1 b = h b.
  Proof.
    intros Hh. unfold ifp, ifelse. rewrite run_bind, (reads_set t R _ _ _ _ _ _ _ _ Hh I). destruct o as [y|]; cbn [set_p].
    - unfold set_nil, assign. rewrite (run_store _ _ _ _ _ _ _ _ _ _ _ Hh). eexists. split; [reflexivity|].
      split; [apply upd_same|]. intros b Nb. apply upd_other; auto.
    - exists h. split; [reflexivity|]. split; auto. pose proof (ho_rep _ _ _ _ _ _ _ _ _ Hh) as Q. inversion Q; subst.
      unfold nil_ptr. rewrite (put_get _ _ _ (ho_path _ _ _ _ _ _ _ _ _ Hh)). apply Hh.
  Qed.

  Lemma flatten_does t : does t reify_ToolsChoice always hFlattenTools flattenTools.
  Proof.
    intros h n a c0 p c x F Hh _. destruct x as [ot oc os].
    pose proof Hh as [H1 H2 H3 H4 H5 H6 [N O]].
    inversion H5 as [| | | | | | | |cells vs F0 Hcells]; subst.
    inversion Hcells as [|c1 v1 Ft cells1 vs1 F1 Hc1 Hcells1]; subst.
    inversion Hcells1 as [|c2 v2 Fc cells2 vs2 F2 Hc2 Hcells2]; subst.
    inversion Hcells2 as [|c3 v3 Fs cells3 vs3 F3 Hc3 Hcells3]; subst.
    inversion Hcells3; subst. clear Hcells Hcells1 Hcells2 Hcells3. rewrite app_nil_r in *.
    cbn [ToolsChoice_Tools ToolsChoice_Components ToolsChoice_Services] in *.
    assert (NC : NoDup (Fc ++ Fs)) by (eapply NoDup_app_remove_l; eauto).
    assert (InT : forall y, In y Ft -> y <> a /\ fst y = fst a /\ snd y < n) by (intros y Y; split; [intros ->; apply H6|apply O]; rewrite !in_app_iff; auto).
    assert (InC : forall y, In y Fc -> y <> a /\ fst y = fst a /\ snd y < n) by (intros y Y; split; [intros ->; apply H6|apply O]; rewrite !in_app_iff; auto).
    assert (InS : forall y, In y Fs -> y <> a /\ fst y = fst a /\ snd y < n) by (intros y Y; split; [intros ->; apply H6|apply O]; rewrite !in_app_iff; auto).
    assert (Hq : forall h' c0' cells i ci v G, (forall b, b <> a -> h' b = h b) -> h' a = Some c0' -> get_path c0' p = Some (HStruct cells) -> nth_error cells i = Some ci ->
                 rep h ci v G -> NoDup G -> (forall y, In y G -> y <> a /\ fst y = fst a /\ snd y < n) -> holds (fst a) h' n a c0' (p ++ [i]) ci v G).
    { intros h' c0' cells i ci v G E1 E2 E3 E4 E5 E6 E7. split; auto.
      - rewrite get_path_app, E3. cbn. rewrite E4. auto.
      - eapply rep_frame; eauto. intros b Hb. apply E1, E7, Hb.
      - intros X. destruct (E7 _ X); auto.
      - split; auto. intros b Hb. apply E7, Hb. }
    assert (Q2 : holds (fst a) h n a c0 (p ++ [1]) c2 (vptr (vslice reify_Component) oc) Fc).
    { eapply Hq; eauto; try reflexivity. eapply NoDup_app_remove_r; eauto. }
    destruct (gather_from_takes _ _ _ _ _ _ _ _ _ _ _ _ _ (component_takes _) Q2) as (cs & G1 & W1 & W2 & W3 & W4).
    destruct (run_drop _ _ _ _ _ _ _ _ _ _ Q2) as (h1 & D1 & D2 & D3).
    set (c01 := put_path c0 p (HStruct [c1; nil_ptr; c3])).
    assert (D2' : h1 a = Some c01). { rewrite D2, (put_app _ _ _ _ _ H4). reflexivity. }
    assert (P01 : get_path c01 p = Some (HStruct [c1; nil_ptr; c3])) by (eapply get_put; eauto).
    assert (Q3 : holds (fst a) h1 n a c01 (p ++ [2]) c3 (vptr (vslice reify_Service) os) Fs).
    { eapply Hq; eauto; try reflexivity. eapply NoDup_app_remove_l; eauto. }
    destruct (gather_from_takes _ _ _ _ _ _ _ _ _ _ _ _ _ (service_takes _) Q3) as (ss & G2 & X1 & X2 & X3 & X4).
    destruct (run_drop _ _ _ _ _ _ _ _ _ _ Q3) as (h2 & Y1 & Y2 & Y3).
    set (c02 := put_path c0 p (HStruct [c1; nil_ptr; nil_ptr])).
    assert (Y2' : h2 a = Some c02). { rewrite Y2, (put_app _ _ _ _ _ P01). unfold c01, c02. cbn. rewrite (put_put _ _ _ _ _ H4). reflexivity. }
    assert (P02 : get_path c02 p = Some (HStruct [c1; nil_ptr; nil_ptr])) by (eapply get_put; eauto).
    assert (Z : forall b, b <> a -> h2 b = h b) by (intros b Nb; rewrite Y3, D3; auto).
    set (conv := map convertComponentToTool (ptr_elems oc) ++ map convertServiceToTool (ptr_elems os)).
    assert (RC : reps h2 (cs ++ ss) (map reify_Tool conv) (G1 ++ G2)).
    { unfold conv. rewrite map_app. apply reps_app.
      - eapply reps_frame; [exact W2|]. intros b Hb. apply Z, InC, W4, Hb.
      - eapply reps_frame; [exact X2|]. intros b Hb. apply Y3, InS, X4, Hb. }
    assert (NG : NoDup (G1 ++ G2)).
    { apply nodup_app; auto. intros y Y Y'. eapply nodup_app_disjoint; [exact NC|apply W4, Y|apply X4, Y']. }
    assert (InG : forall y, In y (G1 ++ G2) -> In y (Fc ++ Fs)) by (intros y; rewrite !in_app_iff; intros [Y|Y]; auto).
    assert (InG' : forall y, In y (G1 ++ G2) -> y <> a /\ fst y = fst a /\ snd y < n) by (intros y Y; apply InG in Y; apply in_app_or in Y as [Y|Y]; auto).
    assert (Front : run (fst a) (hFlattenTools (a, p)) h n = run (fst a)
       match cs ++ ss with
       | [] => Ret tt
       | converted =>
           q <- load_ptr (a, p ++ [0]);;
           match q with
           | None => v <- new_slice converted;; Alloc v (fun e => assign (a, p ++ [0]) (HPtr (Some e)))
           | Some _ =>
               via (a, p ++ [0]) (fun s =>
                 old <- collect s (fun x => Load x (fun v => Ret (Some v)));;
                 v <- new_slice (old ++ converted);; assign s v)
           end
       end h2 n).
    { unfold hFlattenTools. cbv zeta. change (fld (a, p) (ix fields_ToolsChoice "Components")) with (a, p ++ [1]).
      change (fld (a, p) (ix fields_ToolsChoice "Services")) with (a, p ++ [2]). change (fld (a, p) (ix fields_ToolsChoice "Tools")) with (a, p ++ [0]).
      rewrite run_bind, W1. rewrite run_bind, D1. rewrite run_bind, X1. rewrite run_bind, Y1. reflexivity. }
    assert (EF : flattenTools (mkToolsChoice ot oc os) = mkToolsChoice (match conv with [] => ot | _ :: _ => match ot with None => Some (Some conv) | Some s => Some (Some (elems s ++ conv)) end end) None None) by reflexivity.
    rewrite EF. clearbody conv. clear EF.
    assert (NT : NoDup Ft) by (eapply NoDup_app_remove_r; eauto).
    assert (RT : rep h2 c1 (vptr (vslice reify_Tool) ot) Ft) by (eapply rep_frame; [exact Hc1|]; intros b Hb; apply Z, InT, Hb).
    rewrite Front. clear Front.
    destruct (cs ++ ss) as [|d ds].
    - assert (conv = []) as -> by (destruct conv; [auto|inversion RC]).
      exists h2, n, (HStruct [c1; nil_ptr; nil_ptr]), Ft. split; [reflexivity|]. split; auto.
      + rewrite <- (app_nil_r Ft). apply rep_struct. constructor; [exact RT|]. apply (reps_cons _ _ _ [] _ _ []); [constructor|]. apply (reps_cons _ _ _ [] _ _ []); constructor.
      + intros b Hb. left. rewrite !in_app_iff. auto.
    - destruct conv as [|w ws]; [inversion RC|].
      assert (Q1 : holds (fst a) h2 n a c02 (p ++ [0]) c1 (vptr (vslice reify_Tool) ot) Ft) by (eapply Hq; eauto; try reflexivity).
      unfold load_ptr. rewrite !run_bind, (run_load _ _ _ _ _ _ _ _ _ _ Q1).
      destruct ot as [s|].
      + inversion RT as [| | | | |b d1 v G Hb HG| | |]; subst. cbn [run].
        inversion NT as [|? ? NT1 NT2]; subst. destruct (InT b) as (T1 & T2 & T3); [cbn; auto|].
        unfold via, deref, load_ptr. rewrite !run_bind, (run_load _ _ _ _ _ _ _ _ _ _ Q1). cbn [run star].
        assert (Hs : holds (fst a) h2 n b d1 [] d1 (vslice reify_Tool s) G).
        { split; auto. split; auto. intros y Y. apply InT. cbn; auto. }
        destruct (collect_takes _ _ _ _ _ _ _ _ _ _ _ _ _ (takes_self (fst a) reify_Tool) Hs) as (old & Go & O1 & O2 & O3 & O4).
        rewrite run_bind, O1. cbv beta iota.
        set (arr := HStruct (old ++ d :: ds)).
        assert (Bn : b <> (fst a, n)) by (intros ->; cbn in *; lia).
        assert (An : a <> (fst a, n)) by (intros X; rewrite X in H2; cbn in *; lia).
        change (run (fst a) (v0 <- new_slice (old ++ d :: ds);; assign (b, []) v0) h2 n) with (run (fst a) (assign (b, []) (HSlice (Some (fst a, n)))) (upd h2 (fst a, n) arr) (S n)).
        assert (E : run (fst a) (assign (b, []) (HSlice (Some (fst a, n)))) (upd h2 (fst a, n) arr) (S n) = Some (tt, upd (upd h2 (fst a, n) arr) b (HSlice (Some (fst a, n))), S n)).
        { cbn. rewrite T2, Nat.eqb_refl, upd_other, Hb by auto. reflexivity. }
        rewrite E.
        exists (upd (upd h2 (fst a, n) arr) b (HSlice (Some (fst a, n)))), (S n), (HStruct [HPtr (Some b); nil_ptr; nil_ptr]), (b :: (fst a, n) :: Go ++ G1 ++ G2).
        assert (InGo : forall y, In y Go -> In y G) by auto.
        assert (Fr : forall y, In y (Go ++ G1 ++ G2) -> y <> b /\ y <> (fst a, n)).
        { intros y. rewrite in_app_iff. intros Y. split; intros ->.
          - destruct Y as [Y|Y]; [apply NT1; auto|]. apply InG in Y. eapply (nodup_app_disjoint (b :: G) (Fc ++ Fs)); [exact N|left; reflexivity|exact Y].
          - destruct Y as [Y|Y]; [destruct (InT (fst a, n)) as (? & ? & ?); [right; auto|cbn in *; lia]|destruct (InG' _ Y) as (? & ? & ?); cbn in *; lia]. }
        assert (Dis : forall y, In y Go -> ~ In y (G1 ++ G2)).
        { intros y Y Y'. eapply (nodup_app_disjoint (b :: G) (Fc ++ Fs)); [exact N|right; apply InGo, Y|apply InG, Y']. }
        split; [reflexivity|]. split; auto.
        * rewrite !upd_other by auto. exact Y2'.
        * apply rep_struct. rewrite <- (app_nil_r (b :: _)). constructor; [|apply (reps_cons _ _ _ [] _ _ []); [constructor|]; apply (reps_cons _ _ _ [] _ _ []); constructor].
          eapply (rep_ptr _ b); [apply upd_same|].
          apply (rep_slice _ (fst a, n) (old ++ d :: ds)); [rewrite upd_other, upd_same by auto; reflexivity|].
          assert (Eh : forall y, In y (Go ++ G1 ++ G2) -> upd (upd h2 (fst a, n) arr) b (HSlice (Some (fst a, n))) y = h2 y).
          { intros y Y. destruct (Fr y Y). rewrite !upd_other; auto. }
          rewrite map_id in O2. eapply reps_frame; [|exact Eh]. rewrite map_app.
          exact (reps_app _ _ _ _ _ _ _ O2 RC).
        * constructor; [|constructor; [|apply nodup_app; auto]].
          -- intros [X|X]; [auto|]. destruct (Fr _ X); auto.
          -- intros X. destruct (Fr _ X); auto.
        * intros y [<-|[<-|Y]]; [left; cbn; auto|right; split; cbn; auto; lia|].
          left. apply in_app_or in Y as [Y|Y]; [cbn; right; rewrite in_app_iff; auto|]. apply InG in Y. cbn. right. rewrite in_app_iff. auto.
        * intros y M1 M2 M3. rewrite !upd_other; auto; [intros ->; apply M3; split; cbn; auto; lia|intros ->; apply M2; cbn; auto].
      + inversion RT; subst. cbn [run]. cbn [app] in *.
        set (arr := HStruct (d :: ds)).
        assert (An : a <> (fst a, n)) by (intros X; rewrite X in H2; cbn in *; lia).
        assert (An' : a <> (fst a, S n)) by (intros X; rewrite X in H2; cbn in *; lia).
        set (h4 := upd (upd (upd h2 (fst a, n) arr) (fst a, S n) (HSlice (Some (fst a, n)))) a (put_path c02 (p ++ [0]) (HPtr (Some (fst a, S n))))).
        assert (E : run (fst a) (v <- new_slice (d :: ds);; Alloc v (fun e => assign (a, p ++ [0]) (HPtr (Some e)))) h2 n = Some (tt, h4, S (S n))).
        { cbn. rewrite Nat.eqb_refl, !upd_other, Y2' by auto. rewrite (ho_path _ _ _ _ _ _ _ _ _ Q1). reflexivity. }
        rewrite E.
        exists h4, (S (S n)), (HStruct [HPtr (Some (fst a, S n)); nil_ptr; nil_ptr]), ((fst a, S n) :: (fst a, n) :: G1 ++ G2).
        assert (Fr : forall y, In y (G1 ++ G2) -> y <> a /\ y <> (fst a, n) /\ y <> (fst a, S n)).
        { intros y Y. destruct (InG' _ Y) as (A1 & A2 & A3). split; [auto|]. split; intros ->; cbn in *; lia. }
        split; [reflexivity|]. split.
        * lia.
        * unfold h4. rewrite upd_same. rewrite (put_app _ _ _ _ _ P02). unfold c02. cbn. rewrite (put_put _ _ _ _ _ H4). reflexivity.
        * apply rep_struct. rewrite <- (app_nil_r ((fst a, S n) :: _)). constructor; [|apply (reps_cons _ _ _ [] _ _ []); [constructor|]; apply (reps_cons _ _ _ [] _ _ []); constructor].
          eapply (rep_ptr _ (fst a, S n)); [unfold h4; rewrite upd_other, upd_same by auto; reflexivity|].
          apply (rep_slice _ (fst a, n) (d :: ds)); [unfold h4; rewrite !upd_other, upd_same by (auto; intros [=]; lia); reflexivity|].
          eapply reps_frame; [exact RC|]. intros y Y. destruct (Fr y Y) as (A1 & A2 & A3). unfold h4. rewrite !upd_other; auto.
        * constructor; [|constructor; auto].
          -- intros [X|X]; [injection X; lia|]. destruct (Fr _ X) as (_ & _ & ?); auto.
          -- intros X. destruct (Fr _ X) as (_ & ? & _); auto.
        * intros y [<-|[<-|Y]]; [right; split; cbn; auto; lia|right; split; cbn; auto; lia|]. left. apply InG in Y. rewrite !in_app_iff in *. auto.
        * intros y M1 M2 M3. unfold h4. rewrite !upd_other; auto; intros ->; apply M3; split; cbn; auto; lia.
  Qed.
