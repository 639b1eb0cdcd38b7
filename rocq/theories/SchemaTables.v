(** The enumeration tables a conversion works with, compared with the values the
    official schemas define (Within.v). Used by PropsWithin.v. *)
From Verif Require Import Base Types ConvertSpec Within.
Local Open Scope string_scope.
Local Open Scope Z_scope.

(** [s] is a value of the enumeration in version [sv], according to the schemas. *)
Definition defined_in (schema : list (string * SpecVersion)) (sv : SpecVersion) (s : string) : Prop :=
  exists v, In (s, v) schema /\ v <= sv.

Definition same_entry (p q : string * SpecVersion) : bool := String.eqb (fst p) (fst q) && (snd p =? snd q).
Definition skipped (skip : list string) (p : string * SpecVersion) : bool := existsb (String.eqb (fst p)) skip.
Definition included (skip : list string) (a b : enum) : bool :=
  forallb (fun p => skipped skip p || existsb (same_entry p) b) a.

Fixpoint distinct (l : list string) : bool :=
  match l with [] => true | x :: l' => negb (existsb (String.eqb x) l') && distinct l' end.

Lemma included_in skip a b s v : included skip a b = true -> ~ In s skip -> In (s, v) a -> In (s, v) b.
Proof.
  intros H Hs Hin. unfold included in H. rewrite forallb_forall in H. specialize (H _ Hin).
  apply Bool.orb_true_iff in H as [H|H].
  - apply existsb_exists in H as (x & Hx & E). apply String.eqb_eq in E. cbn in E. subst x. contradiction.
  - apply existsb_exists in H as ([s' v'] & Hin' & E). apply Bool.andb_true_iff in E as [E1 E2].
    apply String.eqb_eq in E1. apply Z.eqb_eq in E2. cbn in E1, E2. subst. exact Hin'.
Qed.

Lemma in_enum_iff e sv s : distinct (map fst e) = true -> in_enum e sv s = true <-> defined_in e sv s.
Proof.
  induction e as [|[t w] e IH]; cbn [map distinct in_enum fst]; intros H.
  - split; [discriminate|intros (v & [] & _)].
  - apply Bool.andb_true_iff in H as [H1 H2]. specialize (IH H2).
    destruct (String.eqb_spec t s) as [<-|N].
    + rewrite Z.leb_le. split; [intros; exists w; split; [left; reflexivity|assumption]|].
      intros (v & [E|Hin] & L); [injection E as <-; exact L|].
      exfalso. apply Bool.negb_true_iff in H1. rewrite <- Bool.not_true_iff_false in H1. apply H1.
      apply existsb_exists. exists t. split; [apply in_map_iff; exists (t, v); auto|apply String.eqb_refl].
    + rewrite IH. split; intros (v & Hin & L); exists v; (split; [|exact L]).
      * right; exact Hin.
      * destruct Hin as [E|Hin]; [injection E as -> _; contradiction|exact Hin].
Qed.

Lemma closed_table skip table schema sv s :
  included [] table schema && included skip schema table && distinct (map fst table) = true ->
  ~ In s skip -> in_enum table sv s = true <-> defined_in schema sv s.
Proof.
  intros H Hs. apply Bool.andb_true_iff in H as [H H3]. apply Bool.andb_true_iff in H as [H1 H2].
  rewrite in_enum_iff by exact H3. split; intros (v & Hin & L); exists v; (split; [|exact L]).
  - eapply included_in; [exact H1|intros []|exact Hin].
  - eapply included_in; eassumption.
Qed.

(** As [closed_table] but entries of [skip] may have another version in the table. *)
Lemma closed_table_but skip table schema sv s :
  included skip table schema && included skip schema table && distinct (map fst table) = true ->
  ~ In s skip -> in_enum table sv s = true <-> defined_in schema sv s.
Proof.
  intros H Hs. apply Bool.andb_true_iff in H as [H H3]. apply Bool.andb_true_iff in H as [H1 H2].
  rewrite in_enum_iff by exact H3. split; intros (v & Hin & L); exists v; (split; [|exact L]);
    eapply included_in; eassumption.
Qed.

(** An open table lists only what is newer than the field itself. *)
Fixpoint lookup (e : enum) (s : string) : option SpecVersion :=
  match e with [] => None | (t, v) :: e' => if String.eqb t s then Some v else lookup e' s end.

Lemma in_open_enum_lookup e v sv s :
  in_open_enum e v sv s = (match lookup e s with Some w => w | None => v end <=? sv).
Proof. induction e as [|[t w] e IH]; cbn; [reflexivity|]. destruct (String.eqb t s); [reflexivity|exact IH]. Qed.

Definition open_ok (skip : list string) (table schema : enum) (v : SpecVersion) : bool :=
  forallb (fun p => skipped skip p || (match lookup table (fst p) with Some w => w | None => v end =? snd p)) schema
  && distinct (map fst schema).

Lemma distinct_unique (e : enum) s v w : distinct (map fst e) = true -> In (s, v) e -> In (s, w) e -> v = w.
Proof.
  induction e as [|[t x] e IH]; cbn [map distinct fst]; [intros _ []|].
  intros H. apply Bool.andb_true_iff in H as [H1 H2]. apply Bool.negb_true_iff in H1.
  assert (K : forall u, ~ In (t, u) e).
  { intros u Hu. rewrite <- Bool.not_true_iff_false in H1. apply H1. apply existsb_exists.
    exists t. split; [apply in_map_iff; exists (t, u); auto|apply String.eqb_refl]. }
  intros [E1|I1] [E2|I2].
  - congruence.
  - injection E1 as <- <-. exfalso; eapply K; eassumption.
  - injection E2 as <- <-. exfalso; eapply K; eassumption.
  - eauto.
Qed.

Lemma open_table skip table schema v sv s w :
  open_ok skip table schema v = true -> ~ In s skip -> In (s, w) schema ->
  in_open_enum table v sv s = true <-> defined_in schema sv s.
Proof.
  intros H Hs Hin. apply Bool.andb_true_iff in H as [H Hd]. rewrite forallb_forall in H. pose proof (H _ Hin) as E.
  apply Bool.orb_true_iff in E as [E|E].
  - apply existsb_exists in E as (x & Hx & E). apply String.eqb_eq in E. cbn in E. subst x. contradiction.
  - cbn [fst snd] in E. apply Z.eqb_eq in E. rewrite in_open_enum_lookup, E, Z.leb_le. split.
    + intros L. exists w. auto.
    + intros (u & Hu & L). rewrite (distinct_unique _ _ _ _ Hd Hin Hu). exact L.
Qed.
