(** Correctness of the backtracking matcher with respect to a denotational
    reading of regexps. *)
From Verif Require Import Base Regex.
From Coq Require Import Lia.
Local Open Scope string_scope.

(** [den full r s s' g g']: [r] can match the text between the suffixes [s] and
    [s'] of the input, turning captures [g] into [g']. *)
Fixpoint den (full : string) (r : re) (s s' : string) (g g' : caps) : Prop :=
  match r with
  | RCls c => exists a, s = String a s' /\ in_cls c a = true /\ g' = g
  | RStar c => exists p, s = p ++ s' /\ str_all (in_cls c) p = true /\ g' = g
  | RRep n c => exists p, s = p ++ s' /\ String.length p = n /\ str_all (in_cls c) p = true /\ g' = g
  | RSeq r1 r2 => exists s1 g1, den full r1 s s1 g g1 /\ den full r2 s1 s' g1 g'
  | REps => s' = s /\ g' = g
  | ROpt r1 => den full r1 s s' g g' \/ (s' = s /\ g' = g)
  | RGrp i r1 => exists p g1, s = p ++ s' /\ den full r1 s s' g g1 /\ g' = (i, p) :: g1
  | RBegin => String.length s = String.length full /\ s' = s /\ g' = g
  | REnd => s = "" /\ s' = s /\ g' = g
  end.

Lemma append_assoc' (a b c : string) : (a ++ b) ++ c = a ++ (b ++ c).
Proof. induction a as [|x a IH]; cbn; [reflexivity|now rewrite IH]. Qed.

Lemma length_append (a b : string) : String.length (a ++ b) = String.length a + String.length b.
Proof. induction a as [|x a IH]; cbn; [reflexivity|now rewrite IH]. Qed.

Lemma append_nil_r (a : string) : a ++ "" = a.
Proof. induction a as [|x a IH]; cbn; [reflexivity|now rewrite IH]. Qed.

Lemma take_append (a b : string) : take (String.length a) (a ++ b) = a.
Proof. induction a as [|x a IH]; cbn; [reflexivity|now rewrite IH]. Qed.

Lemma between_append (a b : string) : between (a ++ b) b = a.
Proof.
  unfold between. rewrite length_append.
  replace (String.length a + String.length b - String.length b) with (String.length a) by lia.
  apply take_append.
Qed.

Lemma append_inv_head (a b c : string) : a ++ b = a ++ c -> b = c.
Proof. induction a as [|x a IH]; cbn; intros H; [exact H|injection H; auto]. Qed.

Lemma append_inj_len (a b c d : string) :
  String.length a = String.length c -> a ++ b = c ++ d -> a = c /\ b = d.
Proof.
  revert c; induction a as [|x a IH]; intros [|y c]; cbn; intros HL HE; try discriminate.
  - auto.
  - injection HE as -> HE. injection HL as HL. destruct (IH _ HL HE) as [-> ->]. auto.
Qed.

Lemma str_all_append p a b : str_all p (a ++ b) = (str_all p a && str_all p b)%bool.
Proof. induction a as [|x a IH]; cbn; [reflexivity|]. rewrite IH. apply andb_assoc. Qed.

Lemma match_star_sound c s k x :
  match_star c s k = Some x ->
  exists p s', s = p ++ s' /\ str_all (in_cls c) p = true /\ k s' = Some x.
Proof.
  induction s as [|a s IH]; cbn.
  - intros H. exists "", "". auto.
  - destruct (in_cls c a) eqn:Ha.
    + destruct (match_star c s k) as [y|] eqn:E.
      * intros H. injection H as ->.
        destruct (IH eq_refl) as (p & s' & -> & Hp & Hk).
        exists (String a p), s'. cbn. rewrite Ha. auto.
      * intros H. exists "", (String a s). auto.
    + intros H. exists "", (String a s). auto.
Qed.

Lemma match_star_complete c p s' k x :
  str_all (in_cls c) p = true -> k s' = Some x ->
  exists y, match_star c (p ++ s') k = Some y.
Proof.
  intros Hp Hk. induction p as [|a p IH]; cbn in *.
  - destruct s' as [|a s]; cbn; [eauto|].
    destruct (in_cls c a); [|eauto].
    destruct (match_star c s k); eauto.
  - apply andb_prop in Hp as [Ha Hp]. rewrite Ha.
    destruct (IH Hp) as [y ->]. eauto.
Qed.

Lemma match_rep_iff n c s s' :
  match_rep n c s = Some s' <->
  exists p, s = p ++ s' /\ String.length p = n /\ str_all (in_cls c) p = true.
Proof.
  revert s; induction n as [|n IH]; intros s; cbn.
  - split.
    + intros H; injection H as ->. exists "". auto.
    + intros (p & -> & Hl & _). destruct p; [reflexivity|discriminate].
  - destruct s as [|a s]; split.
    + discriminate.
    + intros (p & Hs & Hl & _). destruct p; discriminate.
    + destruct (in_cls c a) eqn:Ha; [|discriminate].
      intros H. apply IH in H as (p & -> & Hl & Hp).
      exists (String a p). cbn. rewrite Ha, Hl. auto.
    + intros (p & Hs & Hl & Hp). destruct p as [|b p]; [discriminate|].
      cbn in Hs, Hl, Hp. injection Hs as -> ->. injection Hl as Hl.
      apply andb_prop in Hp as [Hb Hp]. rewrite Hb. apply IH. eauto.
Qed.

Lemma den_suffix full r s s' g g' : den full r s s' g g' -> exists p, s = p ++ s'.
Proof.
  revert s s' g g'; induction r; cbn; intros s s' g g'.
  - intros (a & -> & _). exists (String a ""). reflexivity.
  - intros (p & -> & _). eauto.
  - intros (p & -> & _). eauto.
  - intros (s1 & g1 & H1 & H2).
    apply IHr1 in H1 as (p1 & ->). apply IHr2 in H2 as (p2 & ->).
    exists (p1 ++ p2). now rewrite append_assoc'.
  - intros [-> _]. exists "". reflexivity.
  - intros [H|[-> _]]; [eauto|]. exists "". reflexivity.
  - intros (p & g1 & -> & _). eauto.
  - intros (_ & -> & _). exists "". reflexivity.
  - intros (_ & -> & _). exists "". reflexivity.
Qed.

Lemma mtch_sound full r : forall s g k x,
  mtch full r s g k = Some x ->
  exists s' g', den full r s s' g g' /\ k s' g' = Some x.
Proof.
  induction r; cbn; intros s g k x H.
  - destruct s as [|a s]; [discriminate|].
    destruct (in_cls c a) eqn:Ha; [|discriminate]. eauto 10.
  - apply match_star_sound in H as (p & s' & -> & Hp & Hk). eauto 10.
  - destruct (match_rep n c s) as [s'|] eqn:E; [|discriminate].
    apply match_rep_iff in E as (p & -> & Hl & Hp). eauto 10.
  - apply IHr1 in H as (s1 & g1 & H1 & H2).
    apply IHr2 in H2 as (s2 & g2 & H2 & H3). eauto 10.
  - eauto.
  - destruct (mtch full r s g k) as [y|] eqn:E.
    + injection H as ->. apply IHr in E as (s' & g' & Hd & Hk). eauto 10.
    + eauto 10.
  - apply IHr in H as (s' & g' & Hd & Hk).
    destruct (den_suffix _ _ _ _ _ _ Hd) as (p & ->).
    rewrite between_append in Hk. eauto 10.
  - destruct (Nat.eqb_spec (String.length s) (String.length full)); [|discriminate]. eauto 10.
  - destruct s; [|discriminate]. eauto 10.
Qed.

Lemma mtch_complete full r : forall s s' g g' k x,
  den full r s s' g g' -> k s' g' = Some x ->
  exists y, mtch full r s g k = Some y.
Proof.
  induction r; cbn; intros s s' g g' k x Hd Hk.
  - destruct Hd as (a & -> & Ha & ->). rewrite Ha. eauto.
  - destruct Hd as (p & -> & Hp & ->). eapply match_star_complete; eauto.
  - destruct Hd as (p & -> & Hl & Hp & ->).
    assert (E : match_rep n c (p ++ s') = Some s') by (apply match_rep_iff; eauto).
    rewrite E. eauto.
  - destruct Hd as (s1 & g1 & H1 & H2).
    destruct (IHr2 _ _ _ _ k x H2 Hk) as [y Hy].
    eapply IHr1; [exact H1|exact Hy].
  - destruct Hd as [-> ->]. eauto.
  - destruct Hd as [Hd|[-> ->]].
    + destruct (IHr _ _ _ _ _ _ Hd Hk) as [y ->]. eauto.
    + destruct (mtch full r s g k); eauto.
  - destruct Hd as (p & g1 & -> & Hd & ->).
    eapply IHr; [exact Hd|]. cbn. rewrite between_append. exact Hk.
  - destruct Hd as (E & -> & ->). rewrite E, Nat.eqb_refl. eauto.
  - destruct Hd as (-> & -> & ->). eauto.
Qed.

(** Searching with a regexp whose first construct is [^]. *)
Lemma search_anchored full r s g :
  search full (RSeq RBegin r) s = Some g ->
  String.length s <= String.length full ->
  exists s' g', String.length s = String.length full /\
                den full (RSeq RBegin r) s s' [] g' /\ g = (0, between s s') :: g'.
Proof.
  revert g; induction s as [|a s IH]; intros g H HL.
  - cbn [search] in H.
    destruct (mtch full (RSeq RBegin r) "" [] _) as [y|] eqn:E; [|discriminate].
    injection H as ->.
    apply mtch_sound in E as (s' & g' & Hd & Hk). injection Hk as <-.
    exists s', g'. split; [|auto].
    cbn in Hd. destruct Hd as (s1 & g1 & (HL' & _) & _). exact HL'.
  - cbn [search] in H.
    destruct (mtch full (RSeq RBegin r) (String a s) [] _) as [y|] eqn:E.
    + injection H as ->.
      apply mtch_sound in E as (s' & g' & Hd & Hk). injection Hk as <-.
      exists s', g'. split; [|auto].
      cbn in Hd. destruct Hd as (s1 & g1 & (HL' & _) & _). exact HL'.
    + cbn in HL. apply IH in H; [|lia].
      destruct H as (s' & g' & HL' & _). lia.
Qed.

Lemma find_anchored_sound r s g :
  find_submatch (RSeq RBegin r) s = Some g ->
  exists s' g', den s (RSeq RBegin r) s s' [] g' /\ g = (0, between s s') :: g'.
Proof.
  intros H. apply search_anchored in H; [|lia].
  destruct H as (s' & g' & _ & Hd & Hg). eauto.
Qed.

Lemma find_complete r s s' g' :
  den s r s s' [] g' -> exists g, find_submatch r s = Some g.
Proof.
  intros Hd.
  destruct (mtch_complete s r s s' [] g' (fun s' g => Some ((0, between s s') :: g)) _ Hd eq_refl) as [y Hy].
  unfold find_submatch. destruct s; cbn [search]; rewrite Hy; eauto.
Qed.
