(** What encodes contains nothing offensive, whatever its depth. *)
From Verif Require Import Base Types Univ TypeTable Wt Consts Version Numbers NumbersProofs Utf8 Utf8Proofs JsonModel JsonBack JsonProofs JsonHooks JsonRound JsonSpec JsonErrors GobProofs.
From Coq Require Import Lia.
Local Open Scope string_scope.

Definition cleans (v : val) : Prop := forall t esc, ok_ty t = true -> wt t v -> encodes esc (t, v) -> clean t v.

Lemma parts_clean t fs vs ps esc : kind_of t = KStruct fs -> zip_all (fun f x => wt (f_ty f) x) vs fs -> Forall cleans vs ->
  (forall p, In p ps -> In p (combine (map f_ty fs) vs)) ->
  Forall (encodes esc) ps -> Forall (fun p => clean (fst p) (snd p)) ps.
Proof.
  intros K W D Sub E. rewrite Forall_forall in *. intros p Hp. pose proof (Sub p Hp) as C.
  pose proof (zip_combine wt fs vs W p C) as Wp. pose proof (combine_vs _ _ _ C) as Iv.
  assert (Op : ok_ty (fst p) = true).
  { pose proof (struct_ok t fs K) as S. rewrite forallb_forall in S. destruct p as [t' v']. apply in_combine_l in C. apply in_map_iff in C as (f & <- & I). apply S, I. }
  apply (D _ Iv (fst p) esc Op Wp). destruct p. exact (E _ Hp).
Qed.

Lemma all_cleans v : cleans v.
Proof.
  induction v as [s|z|b|f| |x IH| |l IH|vs IH] using val_induction; intros t esc K W E; rewrite clean_iff.
  1-3, 5, 7: split; [intros O; inversion O|constructor].
  - destruct E as (o & E). split; [|constructor]. intros O. inversion O; subst; discriminate E.
  - cbn [wt] in W. destruct (kind_of t) as [| | | |t'| | |] eqn:Kt; try contradiction.
    destruct (kind_ptr t t' K Kt) as (-> & K'). cbn [parts_of]. change (elem_ty (TPtr t')) with t'. rewrite forall1. cbn [fst snd].
    split; [intros O; inversion O|]. exact (IH t' esc K' W E).
  - cbn [wt] in W. destruct (kind_of t) as [| | | | |t'| |] eqn:Kt; try contradiction.
    assert (Et : elem_ty t = t') by (unfold elem_ty; rewrite Kt; reflexivity).
    assert (K' : ok_ty t' = true) by (apply elem_ok_ok, (slice_ok t t' K Kt)).
    cbn [parts_of]. rewrite Et. unfold encodes in E. cbn [fst snd] in E. rewrite jenc_slice, Et, bind_ok2 in E.
    split; [intros O; inversion O|]. destruct E as (os & E). clear -IH W E K'. revert os W E. induction IH as [|x l Hx _ IHl]; intros os W E; [constructor|].
    destruct W as (W1 & W2). cbn [enc_elements] in E. apply bind_ok in E as (o & Eo & E). apply bind_ok in E as (os' & Es & _).
    constructor; [|exact (IHl os' W2 Es)]. apply (Hx t' esc K' W1). eexists. exact Eo.
  - cbn [wt] in W. destruct (kind_of t) as [| | | | | |fs|] eqn:Kt; try contradiction.
    unfold encodes in E. cbn [fst snd] in E. cbn [parts_of]. rewrite jenc_struct, (fields_of_kind t fs Kt) in E. rewrite (fields_of_kind t fs Kt).
    destruct (hook_cases t) as [H|[->|(h & fs' & H)]]; [|discriminate Kt|].
    + rewrite H in *. pose proof (struct_ok_iff esc fs vs (zip_length _ _ _ W)) as R. unfold succeeds in R. apply R in E.
      split; [intros O; inversion O; subst; discriminate H|]. cbn [choice_parts].
      eapply parts_clean; [exact Kt|exact W|exact IH|intros p; apply plain_parts_sub|exact E].
    + rewrite (hooked_kind _ _ _ H) in Kt. injection Kt as <-.
      assert (Q : match marshal_hook t with HNone => enc_struct esc fs' vs (encs vs fs') | h' => scanned (marshal h' fs' vs (encs vs fs')) end
                  = scanned (marshal h fs' vs (encs vs fs'))) by (rewrite (hooked_marshal _ _ _ H); destruct H; reflexivity).
      rewrite Q in E. rewrite (hooked_marshal _ _ _ H). destruct E as (o & E). apply scanned_ok in E.
      assert (Su : succeeds (marshal h fs' vs (encs vs fs'))) by (exists o; exact E).
      destruct (marshal_outcome t h fs' vs H W) as [(O & F)|(O & F)]; [contradiction|]. split; [exact O|].
      eapply parts_clean; [exact (hooked_kind _ _ _ H)|exact W|exact IH|intros p; apply choice_parts_sub|apply F, Su].
Qed.
