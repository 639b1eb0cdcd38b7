(** Reasoning about the programs of HeapModel.v: a guarded execution that gets stuck at any
    access a goroutine must not make, a tree representation with its footprint, and rules
    that turn statements into functions on values. *)
From Coq Require Import Lia.
From Verif Require Import Base Types Univ TypeTable Consts Version ConvertModel GobModel HeapModel.
Local Open Scope string_scope.
Local Open Scope prog_scope.
Local Open Scope list_scope.

(** ** Guarded execution *)

(** Goroutine [t] may read its own memory and the caller's, and write its own. *)
Fixpoint run {A} (t : nat) (P : prog A) (h : heap) (n : nat) : option (A * heap * nat) :=
  match P with
  | Ret a => Some (a, h, n)
  | Load (a, p) k =>
      if (Nat.eqb (fst a) 0 || Nat.eqb (fst a) t)%bool then
        match h a with
        | Some c => match get_path c p with Some v => run t (k v) h n | None => None end
        | None => None
        end
      else None
  | Store (a, p) v P' =>
      if Nat.eqb (fst a) t then
        match h a with
        | Some c => match get_path c p with Some _ => run t P' (upd h a (put_path c p v)) n | None => None end
        | None => None
        end
      else None
  | Alloc c k => run t (k (t, n)) (upd h (t, n) c) (S n)
  | Crash | Loop => None
  end.

Lemma run_bind {A B} t (P : prog A) (k : A -> prog B) : forall h n,
  run t (and_then P k) h n = match run t P h n with Some (a, h', n') => run t (k a) h' n' | None => None end.
Proof.
  induction P as [a|[a p] k' IH|[a p] v P' IH|c k' IH| |]; intros h n; cbn; auto.
  - destruct (_ || _)%bool; auto. destruct (h a); auto. destruct (get_path h0 p); auto.
  - destruct (Nat.eqb (fst a) t); auto. destruct (h a); auto. destruct (get_path h0 p); auto.
Qed.

(** ** Addresses and heaps *)

Lemma addr_eqb_eq a b : addr_eqb a b = true <-> a = b.
Proof.
  unfold addr_eqb. destruct a as [a1 a2], b as [b1 b2]. cbn. rewrite andb_true_iff, !Nat.eqb_eq.
  split; [intros [-> ->]|intros [= -> ->]]; auto.
Qed.
Lemma addr_dec (a b : addr) : {a = b} + {a <> b}.
Proof. destruct (addr_eqb a b) eqn:E; [left; apply addr_eqb_eq, E|right; intros H; apply addr_eqb_eq in H; congruence]. Defined.
Lemma upd_same h a c : upd h a c a = Some c.
Proof. unfold upd. replace (addr_eqb a a) with true; auto. symmetry. apply addr_eqb_eq. auto. Qed.
Lemma upd_other h a c b : b <> a -> upd h a c b = h b.
Proof. intros H. unfold upd. destruct (addr_eqb a b) eqn:E; auto. apply addr_eqb_eq in E. congruence. Qed.

Lemma get_path_app c p q : get_path c (p ++ q) = match get_path c p with Some d => get_path d q | None => None end.
Proof. revert c. induction p as [|i p IH]; intros c; cbn; auto. destruct c; auto. destruct (nth_error fs i); auto. Qed.
Lemma replace_nth_same {A} i (x : A) l : nth_error l i = Some x -> replace_nth i x l = l.
Proof. revert i. induction l as [|y l IH]; intros [|i]; cbn; try discriminate; [intros [= ->]|intros H; rewrite (IH _ H)]; auto. Qed.
Lemma replace_nth_twice {A} i (x y : A) l : replace_nth i y (replace_nth i x l) = replace_nth i y l.
Proof. revert i. induction l as [|z l IH]; intros [|i]; cbn; auto. rewrite IH. auto. Qed.
Lemma nth_replace {A} i (x : A) l : nth_error l i <> None -> nth_error (replace_nth i x l) i = Some x.
Proof. revert i. induction l as [|z l IH]; intros [|i]; cbn; auto; congruence. Qed.
Lemma nth_replace_other {A} i j (x : A) l : i <> j -> nth_error (replace_nth i x l) j = nth_error l j.
Proof. revert i j. induction l as [|z l IH]; intros [|i] [|j]; cbn; auto; congruence. Qed.
Lemma length_replace {A} i (x : A) l : length (replace_nth i x l) = length l.
Proof. revert i. induction l as [|z l IH]; intros [|i]; cbn; auto. Qed.

Lemma put_get c p d : get_path c p = Some d -> put_path c p d = c.
Proof.
  revert c. induction p as [|i p IH]; intros c; cbn; [intros [= ->]; auto|].
  destruct c; auto. destruct (nth_error fs i) as [x|] eqn:E; [|discriminate].
  intros H. rewrite (IH _ H), (replace_nth_same _ _ _ E). auto.
Qed.
Lemma get_put c p d e : get_path c p = Some d -> get_path (put_path c p e) p = Some e.
Proof.
  revert c. induction p as [|i p IH]; intros c; cbn; auto.
  destruct c; try discriminate. destruct (nth_error fs i) as [x|] eqn:E; [|discriminate].
  intros H. cbn. rewrite nth_replace by congruence. apply IH, H.
Qed.
Lemma put_put c p d e f : get_path c p = Some d -> put_path (put_path c p e) p f = put_path c p f.
Proof.
  revert c. induction p as [|i p IH]; intros c; cbn; auto.
  destruct c; try discriminate. destruct (nth_error fs i) as [x|] eqn:E; [|discriminate].
  intros H. cbn. rewrite nth_replace by congruence. rewrite (IH _ H), replace_nth_twice. auto.
Qed.
Lemma put_app c p q d v : get_path c p = Some d -> put_path c (p ++ q) v = put_path c p (put_path d q v).
Proof.
  revert c. induction p as [|i p IH]; intros c; cbn; [intros [= ->]; auto|].
  destruct c; try discriminate. destruct (nth_error fs i) as [x|] eqn:E; [|discriminate].
  intros H. rewrite (IH _ H). auto.
Qed.

(** ** The memory behind a value, with its footprint *)

Inductive rep (h : heap) : hval -> val -> list addr -> Prop :=
| rep_str s : rep h (HStr s) (VStr s) []
| rep_int z : rep h (HInt z) (VInt z) []
| rep_bool b : rep h (HBool b) (VBool b) []
| rep_flt f : rep h (HFlt f) (VFlt f) []
| rep_nil : rep h (HPtr None) (VPtr None) []
| rep_ptr a c v F : h a = Some c -> rep h c v F -> rep h (HPtr (Some a)) (VPtr (Some v)) (a :: F)
| rep_nils : rep h (HSlice None) (VSlice None) []
| rep_slice a cs vs F : h a = Some (HStruct cs) -> reps h cs vs F -> rep h (HSlice (Some a)) (VSlice (Some vs)) (a :: F)
| rep_struct cs vs F : reps h cs vs F -> rep h (HStruct cs) (VStruct vs) F
with reps (h : heap) : list hval -> list val -> list addr -> Prop :=
| reps_nil : reps h [] [] []
| reps_cons c v F cs vs G : rep h c v F -> reps h cs vs G -> reps h (c :: cs) (v :: vs) (F ++ G).
Scheme rep_mut := Induction for rep Sort Prop with reps_mut := Induction for reps Sort Prop.
Combined Scheme rep_reps_ind from rep_mut, reps_mut.

Lemma rep_frame_both h h' :
  (forall c v F, rep h c v F -> (forall b, In b F -> h' b = h b) -> rep h' c v F) /\
  (forall cs vs F, reps h cs vs F -> (forall b, In b F -> h' b = h b) -> reps h' cs vs F).
Proof.
  apply (rep_reps_ind h (fun c v F _ => (forall b, In b F -> h' b = h b) -> rep h' c v F)
           (fun cs vs F _ => (forall b, In b F -> h' b = h b) -> reps h' cs vs F)); intros; try (constructor; auto; fail).
  - econstructor; [rewrite H0; cbn; eauto|]. apply H; intros; apply H0; cbn; auto.
  - econstructor; [rewrite H0; cbn; eauto|]. apply H; intros; apply H0; cbn; auto.
  - constructor; [apply H|apply H0]; intros; apply H1; apply in_or_app; auto.
Qed.
Lemma rep_frame h h' c v F : rep h c v F -> (forall b, In b F -> h' b = h b) -> rep h' c v F.
Proof. apply rep_frame_both. Qed.
Lemma reps_frame h h' cs vs F : reps h cs vs F -> (forall b, In b F -> h' b = h b) -> reps h' cs vs F.
Proof. apply rep_frame_both. Qed.

Lemma reps_length h cs vs F : reps h cs vs F -> length cs = length vs.
Proof. induction 1; cbn; auto. Qed.
Lemma reps_app h cs vs F cs' vs' F' : reps h cs vs F -> reps h cs' vs' F' -> reps h (cs ++ cs') (vs ++ vs') (F ++ F').
Proof. induction 1; cbn; auto. rewrite <- app_assoc. constructor; auto. Qed.
Lemma reps_split h cs vs F i v : reps h cs vs F -> nth_error vs i = Some v ->
  exists c F1 Fi F2, nth_error cs i = Some c /\ F = F1 ++ Fi ++ F2 /\ rep h c v Fi /\
    (forall h' c' v' Fi', rep h' c' v' Fi' -> (forall b, In b F1 \/ In b F2 -> h' b = h b) ->
       reps h' (replace_nth i c' cs) (replace_nth i v' vs) (F1 ++ Fi' ++ F2)).
Proof.
  intros H. revert i. induction H as [|c w F cs vs G Hc Hcs IH]; intros i; [destruct i; discriminate|].
  destruct i as [|i]; cbn.
  - intros [= ->]. exists c, [], F, G. split; [auto|]. split; [auto|]. split; [auto|].
    intros h' c' v' Fi' H1 H2. cbn [app replace_nth]. constructor; auto. eapply reps_frame; eauto.
  - intros Hi. destruct (IH i Hi) as (d & F1 & Fi & F2 & E1 & -> & E2 & E3).
    exists d, (F ++ F1), Fi, F2. split; [auto|]. split; [rewrite app_assoc; auto|]. split; [auto|].
    intros h' c' v' Fi' H1 H2. rewrite <- app_assoc. cbn [replace_nth]. constructor.
    + eapply rep_frame; eauto. intros; apply H2. left. apply in_or_app; auto.
    + apply E3; auto. intros b [Hb|Hb]; apply H2; auto. left. apply in_or_app; auto.
Qed.

(** ** Triples *)

Definition fresh (t n n' : nat) (b : addr) : Prop := fst b = t /\ n <= snd b < n'.
Definition owned (t n : nat) (F : list addr) : Prop := NoDup F /\ forall b, In b F -> fst b = t /\ snd b < n.

(** What a program may have done to the cell [a], whose part at [p] represented [x]. *)
Record effect (t : nat) (h : heap) (n : nat) (a : addr) (F : list addr) (c0 : hval) (p : list nat) (v' : val)
              (h' : heap) (n' : nat) (c' : hval) (F' : list addr) : Prop := mkEffect {
  ef_n : n <= n';
  ef_cell : h' a = Some (put_path c0 p c');
  ef_rep : rep h' c' v' F';
  ef_nodup : NoDup F';
  ef_in : forall b, In b F' -> In b F \/ fresh t n n' b;
  ef_frame : forall b, b <> a -> ~ In b F -> ~ fresh t n n' b -> h' b = h b }.

(** [place_at t h n a c0 p c x F]: the variable at (a, p) holds the value [v]. *)
Record holds (t : nat) (h : heap) (n : nat) (a : addr) (c0 : hval) (p : list nat) (c : hval) (v : val) (F : list addr) : Prop := mkHolds {
  ho_t : fst a = t;
  ho_n : snd a < n;
  ho_cell : h a = Some c0;
  ho_path : get_path c0 p = Some c;
  ho_rep : rep h c v F;
  ho_not : ~ In a F;
  ho_own : owned t n F }.

(** [P], given the address of a variable of type [T], turns its value [x] into [f x]. *)
Definition does {T} (t : nat) (R : T -> val) (D : T -> Prop) (P : loc -> prog unit) (f : T -> T) : Prop :=
  forall h n a c0 p c x F, holds t h n a c0 p c (R x) F -> D x ->
    exists h' n' c' F', run t (P (a, p)) h n = Some (tt, h', n') /\ effect t h n a F c0 p (R (f x)) h' n' c' F'.

(** [E], given the address of a variable, reads [e x] from it and changes nothing. *)
Definition reads {T B} (t : nat) (R : T -> val) (D : T -> Prop) (E : loc -> prog B) (e : T -> B) : Prop :=
  forall h n a c0 p c x F, holds t h n a c0 p c (R x) F -> D x -> run t (E (a, p)) h n = Some (e x, h, n).

Definition always {T} (x : T) : Prop := True.
Definition present {T} (x : option T) : Prop := exists y, x = Some y.

Lemma effect_holds t h n a c0 p c v F v' h' n' c' F' :
  holds t h n a c0 p c v F -> effect t h n a F c0 p v' h' n' c' F' -> holds t h' n' a (put_path c0 p c') p c' v' F'.
Proof.
  intros [H1 H2 H3 H4 H5 H6 H7] [E1 E2 E3 E4 E5 E6].
  split; auto; try lia.
  - eapply get_put; eauto.
  - intros H. destruct (E5 _ H) as [?|[_ ?]]; auto; lia.
  - split; auto. intros b Hb. destruct (E5 _ Hb) as [H|[? ?]]; [|split; auto; lia].
    destruct H7 as [_ H7]. destruct (H7 _ H). split; auto; lia.
Qed.

Lemma fresh_later t n n' n'' b : n <= n' -> n' <= n'' -> fresh t n n' b \/ fresh t n' n'' b -> fresh t n n'' b.
Proof. unfold fresh. intros ? ? [[? ?]|[? ?]]; split; auto; lia. Qed.
Lemma effect_trans t h n a c0 p c v F v1 h1 n1 c1 F1 v2 h2 n2 c2 F2 :
  holds t h n a c0 p c v F -> effect t h n a F c0 p v1 h1 n1 c1 F1 ->
  effect t h1 n1 a F1 (put_path c0 p c1) p v2 h2 n2 c2 F2 -> effect t h n a F c0 p v2 h2 n2 c2 F2.
Proof.
  intros H [A1 A2 A3 A4 A5 A6] [B1 B2 B3 B4 B5 B6]. split; auto; try lia.
  - rewrite B2. erewrite put_put; eauto. apply (ho_path _ _ _ _ _ _ _ _ _ H).
  - intros b Hb. destruct (B5 _ Hb) as [Hb1|Hb1]; [destruct (A5 _ Hb1); auto|]; right; eapply fresh_later; eauto; lia.
  - intros b N1 N2 N3. rewrite B6, A6; auto.
    + intros X. apply N3. eapply fresh_later; [| |left; apply X]; auto.
    + intros X. destruct (A5 _ X); auto. apply N3. eapply fresh_later; [| |left; eauto]; auto.
    + intros X. apply N3. eapply fresh_later; [| |right; apply X]; auto.
Qed.
Lemma effect_refl t h n a c0 p c v F : holds t h n a c0 p c v F -> effect t h n a F c0 p v h n c F.
Proof.
  intros [H1 H2 H3 H4 H5 H6 H7]. split; auto; try lia; try apply H7. rewrite (put_get _ _ _ H4). auto.
Qed.

(** ** Rules *)

Section Rules.
  Variable t : nat.
  Context {T : Type} (R : T -> val).

  Lemma does_weaken (D D' : T -> Prop) P f : (forall x, D' x -> D x) -> does t R D P f -> does t R D' P f.
  Proof. intros H H1 h n a c0 p c x F Hh HD. eapply H1; eauto. Qed.
  Lemma does_ext (D : T -> Prop) P f g : (forall x, D x -> f x = g x) -> does t R D P f -> does t R D P g.
  Proof. intros H H1 h n a c0 p c x F Hh HD. rewrite <- (H x HD). eapply H1; eauto. Qed.
  Lemma does_ret (D : T -> Prop) : does t R D (fun _ => Ret tt) (fun x => x).
  Proof. intros h n a c0 p c x F Hh HD. do 4 eexists. split; [reflexivity|]. eapply effect_refl; eauto. Qed.
  Lemma does_seq (D D' : T -> Prop) P Q f g :
    does t R D P f -> does t R D' Q g -> (forall x, D x -> D' (f x)) ->
    does t R D (fun l => P l;; Q l) (fun x => g (f x)).
  Proof.
    intros HP HQ HD h n a c0 p c x F Hh Hx.
    destruct (HP _ _ _ _ _ _ _ _ Hh Hx) as (h1 & n1 & c1 & F1 & E1 & X1).
    destruct (HQ _ _ _ _ _ _ _ _ (effect_holds _ _ _ _ _ _ _ _ _ _ _ _ _ _ Hh X1) (HD _ Hx)) as (h2 & n2 & c2 & F2 & E2 & X2).
    exists h2, n2, c2, F2. split; [rewrite run_bind, E1; auto|]. eapply effect_trans; eauto.
  Qed.
  Lemma does_when (b : bool) (D : T -> Prop) P f : does t R D P f -> does t R D (fun l => whenp b (P l)) (when b f).
  Proof. intros H. destruct b; cbn; [exact H|apply does_ret]. Qed.
  Lemma does_if (b : bool) (D : T -> Prop) P Q f g :
    does t R D P f -> does t R D Q g -> does t R D (fun l => if b then P l else Q l) (fun x => if b then f x else g x).
  Proof. intros; destruct b; auto. Qed.
  Lemma does_ifelse (D D1 : T -> Prop) E e P f Q g : reads t R D E e -> does t R D1 P f -> does t R D Q g ->
    (forall x, D x -> e x = true -> D1 x) ->
    does t R D (fun l => ifelse (E l) (P l) (Q l)) (fun x => if e x then f x else g x).
  Proof.
    intros HE HP HQ HD h n a c0 p c x F Hh Hx. unfold ifelse.
    pose proof (HE _ _ _ _ _ _ _ _ Hh Hx) as E1. destruct (e x) eqn:Ex.
    - destruct (HP _ _ _ _ _ _ _ _ Hh (HD _ Hx Ex)) as (h1 & n1 & c1 & F1 & E2 & X1).
      exists h1, n1, c1, F1. rewrite run_bind, E1. auto.
    - destruct (HQ _ _ _ _ _ _ _ _ Hh Hx) as (h1 & n1 & c1 & F1 & E2 & X1).
      exists h1, n1, c1, F1. rewrite run_bind, E1. auto.
  Qed.
  Lemma does_ifp (D D1 : T -> Prop) E e P f : reads t R D E e -> does t R D1 P f -> (forall x, D x -> e x = true -> D1 x) ->
    does t R D (fun l => ifp (E l) (P l)) (when_c e f).
  Proof. intros. unfold ifp. eapply (does_ifelse D D1); eauto. apply does_ret. Qed.

  Lemma reads_weaken {B} (D D' : T -> Prop) (E : loc -> prog B) e : (forall x, D' x -> D x) -> reads t R D E e -> reads t R D' E e.
  Proof. intros H H1 h n a c0 p c x F Hh HD. eapply H1; eauto. Qed.
  Lemma reads_both (D D1 : T -> Prop) E e E' e' : reads t R D E e -> reads t R D1 E' e' -> (forall x, D x -> e x = true -> D1 x) ->
    reads t R D (fun l => both (E l) (E' l)) (fun x => e x && e' x)%bool.
  Proof.
    intros H1 H2 HD h n a c0 p c x F Hh Hx. unfold both. rewrite run_bind, (H1 _ _ _ _ _ _ _ _ Hh Hx).
    destruct (e x) eqn:Ex; cbn; auto. eapply H2; eauto.
  Qed.
  Lemma reads_not (D : T -> Prop) E e : reads t R D E e -> reads t R D (fun l => not_ (E l)) (fun x => negb (e x)).
  Proof. intros H1 h n a c0 p c x F Hh Hx. unfold not_. rewrite run_bind, (H1 _ _ _ _ _ _ _ _ Hh Hx). auto. Qed.
End Rules.

(** A variable holding a field, with the lens to it. *)
Definition is_field {T U} (R : T -> val) (i : nat) (R' : U -> val) (get : T -> U) (over : (U -> U) -> T -> T) : Prop :=
  forall x, (exists vs, R x = VStruct vs /\ nth_error vs i = Some (R' (get x)) /\
                        forall f, R (over f x) = VStruct (replace_nth i (R' (f (get x))) vs)) /\
            (forall f, f (get x) = get x -> over f x = x) /\
            (forall f g, over g (over f x) = over (fun u => g (f u)) x).

Lemma NoDup_app_remove_l {A} (l l' : list A) : NoDup (l ++ l') -> NoDup l'.
Proof. induction l as [|x l IH]; cbn; auto. inversion 1; auto. Qed.
Lemma NoDup_app_remove_r {A} (l l' : list A) : NoDup (l ++ l') -> NoDup l.
Proof.
  induction l as [|x l IH]; cbn; [constructor|]. inversion 1; subst. constructor; auto. intros X. apply H2, in_or_app. auto.
Qed.
Lemma owned_part t n F1 F2 F3 : owned t n (F1 ++ F2 ++ F3) -> owned t n F2.
Proof.
  intros [H1 H2]. split; [|intros; apply H2; rewrite !in_app_iff; auto].
  apply NoDup_app_remove_l in H1. apply NoDup_app_remove_r in H1. auto.
Qed.
Lemma nodup_replace {A} (F1 F2 F3 F' : list A) :
  NoDup (F1 ++ F2 ++ F3) -> NoDup F' -> (forall b, In b F' -> ~ In b F1 /\ ~ In b F3) -> NoDup (F1 ++ F' ++ F3).
Proof.
  intros H1 H2 H3. induction F1 as [|x F1 IH]; cbn in *.
  - induction F' as [|y F' IH]; cbn; [apply NoDup_app_remove_l in H1; auto|].
    inversion H2; subst. constructor; [|apply IH; auto; intros; apply H3; cbn; auto].
    rewrite in_app_iff. intros [?|?]; auto. apply (H3 y); cbn; auto.
  - inversion H1; subst. constructor.
    + rewrite !in_app_iff in *. intros [?|[X|?]]; try tauto. destruct (H3 x X). cbn in *. tauto.
    + apply IH; auto. intros b Hb. destruct (H3 b Hb). cbn in *. tauto.
Qed.
Lemma nodup_disjoint {A} (F1 F2 F3 : list A) b : NoDup (F1 ++ F2 ++ F3) -> In b F2 -> ~ In b F1 /\ ~ In b F3.
Proof.
  intros H1 H2. split.
  - intros H3. induction F1 as [|x F1 IH]; [destruct H3|]. cbn in H1. inversion H1; subst. destruct H3 as [->|H3]; auto.
    apply H4. rewrite !in_app_iff. auto.
  - intros H3. apply NoDup_app_remove_l in H1. induction F2 as [|x F2 IH]; [destruct H2|]. cbn in H1. inversion H1; subst.
    destruct H2 as [->|H2]; auto. apply H4. rewrite in_app_iff. auto.
Qed.

Section Fields.
  Variable t : nat.
  Context {T U : Type} (R : T -> val) (i : nat) (R' : U -> val) (get : T -> U) (over : (U -> U) -> T -> T).
  Hypothesis Hf : is_field R i R' get over.

  Lemma field_holds h n a c0 p c x F : holds t h n a c0 p c (R x) F ->
    exists c' F', holds t h n a c0 (p ++ [i]) c' (R' (get x)) F' /\
      forall f h' n' d G, effect t h n a F' c0 (p ++ [i]) (R' (f (get x))) h' n' d G ->
        exists d' G', effect t h n a F c0 p (R (over f x)) h' n' d' G'.
  Proof.
    intros [H1 H2 H3 H4 H5 H6 H7]. destruct (Hf x) as [(vs & E1 & E2 & E3) _].
    rewrite E1 in H5. inversion H5 as [| | | | | | | |cs vs' F' Hcs]; subst.
    destruct (reps_split _ _ _ _ _ _ Hcs E2) as (ci & F1 & Fi & F2 & Q1 & -> & Q3 & Q4).
    exists ci, Fi. split.
    - split; auto.
      + rewrite get_path_app, H4. cbn. rewrite Q1. auto.
      + intros X. apply H6. rewrite !in_app_iff. auto.
      + eapply owned_part; eauto.
    - intros f h' n' d G [A1 A2 A3 A4 A5 A6].
      assert (Z : forall b, In b F1 \/ In b F2 -> b <> a /\ ~ In b Fi /\ ~ fresh (fst a) n n' b).
      { intros b Hb. split; [|split].
        - intros ->. apply H6. rewrite !in_app_iff. tauto.
        - intros X. destruct (nodup_disjoint _ _ _ b (proj1 H7) X). tauto.
        - intros [X1 X2]. destruct H7 as [_ H7]. destruct (H7 b); [rewrite !in_app_iff; tauto|lia]. }
      exists (HStruct (replace_nth i d cs)), (F1 ++ G ++ F2). split; auto.
      + rewrite A2. rewrite (put_app _ _ _ _ _ H4). cbn. rewrite Q1. auto.
      + rewrite E3. constructor. apply Q4; auto. intros b Hb. destruct (Z b Hb) as (Z1 & Z2 & Z3). apply A6; auto.
      + eapply nodup_replace; eauto using (proj1 H7). intros b Hb. destruct (A5 _ Hb) as [X|X].
        * eapply nodup_disjoint; eauto using (proj1 H7).
        * split; intros Y; destruct (Z b ltac:(tauto)) as (Z1 & Z2 & Z3); auto.
      + intros b. rewrite !in_app_iff. intros [X|[X|X]]; auto. destruct (A5 _ X); auto.
      + intros b N1 N2 N3. apply A6; auto. intros X. apply N2. rewrite !in_app_iff. auto.
  Qed.

  Lemma does_field (D : U -> Prop) P f : does t R' D P f -> does t R (fun x => D (get x)) (fun l => P (fld l i)) (over f).
  Proof.
    intros HP h n a c0 p c x F Hh Hx. destruct (field_holds _ _ _ _ _ _ _ _ Hh) as (c' & F' & H1 & H2).
    destruct (HP _ _ _ _ _ _ _ _ H1 Hx) as (h1 & n1 & c1 & F1 & E1 & X1).
    destruct (H2 f _ _ _ _ X1) as (d & G & X). exists h1, n1, d, G. auto.
  Qed.
  Lemma reads_field {B} (D : U -> Prop) (E : loc -> prog B) e : reads t R' D E e -> reads t R (fun x => D (get x)) (fun l => E (fld l i)) (fun x => e (get x)).
  Proof.
    intros HP h n a c0 p c x F Hh Hx. destruct (field_holds _ _ _ _ _ _ _ _ Hh) as (c' & F' & H1 & H2).
    apply (HP _ _ _ _ _ _ _ _ H1 Hx).
  Qed.
End Fields.

(** Loads and stores of the running goroutine. *)
Lemma run_load {A} t h n a c0 p c v F (k : hval -> prog A) : holds t h n a c0 p c v F -> run t (Load (a, p) k) h n = run t (k c) h n.
Proof. intros [H1 H2 H3 H4 H5 H6 H7]. cbn. rewrite H3, H4, <- H1, Nat.eqb_refl, orb_true_r. auto. Qed.
Lemma run_store {A} t h n a c0 p c v F w (k : prog A) : holds t h n a c0 p c v F ->
  run t (Store (a, p) w k) h n = run t k (upd h a (put_path c0 p w)) n.
Proof. intros [H1 H2 H3 H4 H5 H6 H7]. cbn. rewrite H3, H4, <- H1, Nat.eqb_refl. auto. Qed.

Definition flat (c : hval) (v : val) : Prop := forall h, rep h c v [].
Lemma does_assign {T} t (R : T -> val) c y : flat c (R y) -> does t R always (fun l => assign l c) (fun _ => y).
Proof.
  intros Hc h n a c0 p d x F Hh _. unfold assign. rewrite (run_store _ _ _ _ _ _ _ _ _ _ _ Hh). cbn.
  do 4 eexists. split; [reflexivity|]. split.
  - lia.
  - apply upd_same.
  - apply Hc.
  - constructor.
  - intros b [].
  - intros b N _ _. apply upd_other. auto.
Qed.
Lemma does_clear t : does t VStr always clear (fun _ => "").
Proof. apply does_assign. intros h; constructor. Qed.
Lemma does_set_nil {T} t (R : T -> val) : does t (vptr R) always set_nil (fun _ => None).
Proof. apply does_assign. intros h; constructor. Qed.

Section Pointers.
  Variable t : nat.
  Context {T : Type} (R : T -> val).

  Lemma ptr_holds h n a c0 p c y F : holds t h n a c0 p c (vptr R (Some y)) F ->
    exists b d G, c = HPtr (Some b) /\ holds t h n b d [] d (R y) G /\
      forall f h' n' d' G', effect t h n b G d [] (R (f y)) h' n' d' G' ->
        exists G'', effect t h n a F c0 p (vptr R (Some (f y))) h' n' c G''.
  Proof.
    intros [H1 H2 H3 H4 H5 H6 H7]. inversion H5 as [| | | | |b d v G Hb HG| | |]; subst.
    exists b, d, G. split; auto. destruct H7 as [N O]. inversion N as [|? ? N1 N2]; subst. split.
    - split; auto; try apply O; cbn; auto.
      split; auto. intros; apply O; cbn; auto.
    - intros f h' n' d' G' [A1 A2 A3 A4 A5 A6]. exists (b :: G').
      destruct (O b) as [O1 O2]; [cbn; auto|].
      split; auto.
      + rewrite (put_get _ _ _ H4), A6; auto.
        * intros ->. apply H6. cbn; auto.
        * intros X. apply H6. cbn; auto.
        * intros [X1 X2]. lia.
      + constructor 6 with d'; auto.
      + constructor; auto. intros X. destruct (A5 _ X) as [?|[? ?]]; auto; lia.
      + intros x [<-|X]; cbn; auto. destruct (A5 _ X); auto.
      + intros x N3 N4 N5. cbn in N4. apply A6; auto.
  Qed.

  Lemma does_via P f (D : T -> Prop) : does t R D P f -> does t (vptr R) (fun o => exists y, o = Some y /\ D y) (fun l => via l P) (behind f).
  Proof.
    intros HP h n a c0 p c x F Hh (y & -> & Hy). destruct (ptr_holds _ _ _ _ _ _ _ _ Hh) as (b & d & G & -> & H1 & H2).
    destruct (HP _ _ _ _ _ _ _ _ H1 Hy) as (h1 & n1 & c1 & F1 & E1 & X1).
    destruct (H2 f _ _ _ _ X1) as (G' & X). exists h1, n1, (HPtr (Some b)), G'. split; auto.
    unfold via, deref, load_ptr. rewrite !run_bind, (run_load _ _ _ _ _ _ _ _ _ _ Hh). cbn [run star]. auto.
  Qed.
  Lemma does_call g f (D : T -> Prop) : g None = Ret tt -> does t R D (fun l => g (Some l)) f ->
    does t (vptr R) (fun o => forall y, o = Some y -> D y) (call g) (behind f).
  Proof.
    intros Hg HP h n a c0 p c x F Hh Hx. unfold call, load_ptr. destruct x as [y|].
    - destruct (ptr_holds _ _ _ _ _ _ _ _ Hh) as (b & d & G & -> & H1 & H2).
      destruct (HP _ _ _ _ _ _ _ _ H1 (Hx y eq_refl)) as (h1 & n1 & c1 & F1 & E1 & X1).
      destruct (H2 f _ _ _ _ X1) as (G' & X). exists h1, n1, (HPtr (Some b)), G'. split; auto.
      rewrite !run_bind, (run_load _ _ _ _ _ _ _ _ _ _ Hh). cbn [run star]. auto.
    - exists h, n, c, F. split; [|eapply effect_refl; eauto].
      rewrite !run_bind, (run_load _ _ _ _ _ _ _ _ _ _ Hh).
      pose proof (ho_rep _ _ _ _ _ _ _ _ _ Hh) as X. cbn in X. inversion X; subst. assert (E : run t (g None) h n = Some (tt, h, n)) by (rewrite Hg; auto). exact E.
  Qed.
  Definition set_p (o : option T) : bool := match o with Some _ => true | None => false end.
  Lemma reads_set : reads t (vptr R) always is_set set_p.
  Proof.
    intros h n a c0 p c x F Hh _. unfold is_set, load_ptr. rewrite !run_bind, (run_load _ _ _ _ _ _ _ _ _ _ Hh).
    pose proof (ho_rep _ _ _ _ _ _ _ _ _ Hh) as X. destruct x; inversion X; subst; auto.
  Qed.
  Lemma reads_at (D : T -> Prop) E e dflt : reads t R D E e ->
    reads t (vptr R) (fun o => exists y, o = Some y /\ D y) (fun l => at_ l E) (fun o => match o with Some y => e y | None => dflt end).
  Proof.
    intros HP h n a c0 p c x F Hh (y & -> & Hy). destruct (ptr_holds _ _ _ _ _ _ _ _ Hh) as (b & d & G & -> & H1 & H2).
    unfold at_, deref, load_ptr. rewrite !run_bind, (run_load _ _ _ _ _ _ _ _ _ _ Hh). cbn [run star].
    apply (HP _ _ _ _ _ _ _ _ H1 Hy).
  Qed.
End Pointers.

Lemma reads_str t test : reads t VStr always (str_is test) test.
Proof.
  intros h n a c0 p c x F Hh _. unfold str_is, load_str. rewrite !run_bind, (run_load _ _ _ _ _ _ _ _ _ _ Hh).
  pose proof (ho_rep _ _ _ _ _ _ _ _ _ Hh) as X. inversion X; subst; auto.
Qed.

(** ** Slices *)

Lemma holds_range {T} t (R : T -> val) h n a c0 p c x F : holds t h n a c0 p c (vslice R x) F ->
  match x with
  | None => c = HSlice None /\ F = []
  | Some l => exists b cs G, c = HSlice (Some b) /\ F = b :: G /\ h b = Some (HStruct cs) /\ reps h cs (map R l) G /\ length cs = length l
  end.
Proof.
  intros [H1 H2 H3 H4 H5 H6 H7]. destruct x as [l|]; cbn in H5; inversion H5 as [| | | | | | |b cs vs G Hb HG|]; subst; auto.
  exists b, cs, G. do 4 (split; auto). apply reps_length in HG. rewrite map_length in HG. auto.
Qed.
Lemma run_elements {T} t (R : T -> val) h n a c0 p c x F : holds t h n a c0 p c (vslice R x) F ->
  run t (elements (a, p)) h n = Some (match x, c with Some l, HSlice (Some b) => Some (b, length l) | _, _ => None end, h, n).
Proof.
  intros Hh. pose proof (holds_range _ _ _ _ _ _ _ _ _ _ Hh) as Q. unfold elements. rewrite (run_load _ _ _ _ _ _ _ _ _ _ Hh).
  destruct x as [l|].
  - destruct Q as (b & cs & G & -> & -> & Hb & HG & Hl). cbn.
    destruct (ho_own _ _ _ _ _ _ _ _ _ Hh) as [_ O]. destruct (O b) as [O1 O2]; [cbn; auto|].
    rewrite O1, Nat.eqb_refl, orb_true_r, Hb. cbn. rewrite Hl. auto.
  - destruct Q as [-> ->]. cbn. auto.
Qed.

(** Several consecutive elements of a slice. The array is the cell [b]. *)
Lemma loop_spec {T} t (R : T -> val) (D : T -> Prop) body f : does t R D body f ->
  forall l h n b cs done G1 G2, fst b = t -> snd b < n -> h b = Some (HStruct (done ++ cs)) ->
    reps h cs (map R l) G2 -> ~ In b G2 -> owned t n (G1 ++ G2) -> Forall D l ->
    exists h' n' cs' G2', run t (loop (length done) (length l) (fun i => body (b, [i]))) h n = Some (tt, h', n') /\ n <= n' /\
      h' b = Some (HStruct (done ++ cs')) /\ reps h' cs' (map R (map f l)) G2' /\ NoDup (G1 ++ G2') /\
      (forall x, In x G2' -> In x G2 \/ fresh t n n' x) /\
      (forall x, x <> b -> ~ In x G2 -> ~ fresh t n n' x -> h' x = h x).
Proof.
  intros Hb. induction l as [|x l IH]; intros h n b cs done G1 G2 B1 B2 B3 Hcs Hnb Ho HD.
  - inversion Hcs; subst. exists h, n, [], []. cbn. destruct Ho as [N O]. split; [auto|]. split; [auto|]. split; [auto|]. split; [constructor|]. split; [auto|]. split; [tauto|auto].
  - inversion Hcs as [|c v F cs0 vs G Hc Hcs' E1 E2]; subst. inversion HD as [|? ? D1 D2]; subst.
    assert (Hh : holds (fst b) h n b (HStruct (done ++ c :: cs0)) [length done] c (R x) F).
    { split; auto.
      - cbn. rewrite nth_error_app2, Nat.sub_diag by lia. auto.
      - intros X. apply Hnb. rewrite in_app_iff; auto.
      - eapply (owned_part _ _ G1 F G). auto. }
    destruct (Hb _ _ _ _ _ _ _ _ Hh D1) as (h1 & n1 & c1 & F1 & R1 & [A1 A2 A3 A4 A5 A6]).
    assert (PP : put_path (HStruct (done ++ c :: cs0)) [length done] c1 = HStruct ((done ++ [c1]) ++ cs0)).
    { cbn. rewrite nth_error_app2, Nat.sub_diag by lia. cbn. f_equal. clear. induction done as [|y done IH]; cbn; auto. rewrite IH. auto. }
    rewrite PP in A2.
    assert (Dis : forall y, In y G1 \/ In y G -> y <> b -> ~ In y F /\ ~ fresh (fst b) n n1 y).
    { intros y Hy Nb. split.
      - intros X. destruct (nodup_disjoint G1 F G y (proj1 Ho) X). tauto.
      - intros [X1 X2]. destruct Ho as [_ O]. destruct (O y); [rewrite !in_app_iff; tauto|lia]. }
    assert (NbG : ~ In b G) by (intros X; apply Hnb; rewrite in_app_iff; auto).
    destruct (IH h1 n1 b cs0 (done ++ [c1]) (G1 ++ F1) G) as (h2 & n2 & cs' & G2' & R2 & C1 & C2 & C3 & C4 & C5 & C6); auto; try lia.
    + eapply reps_frame; eauto. intros y Hy. assert (Yb : y <> b) by (intros ->; auto). destruct (Dis y (or_intror Hy) Yb). apply A6; auto.
    + destruct Ho as [N O]. split.
      * rewrite <- app_assoc. eapply nodup_replace; eauto. intros y Hy. destruct (A5 _ Hy) as [X|X].
        -- eapply nodup_disjoint; eauto.
        -- split; intros Y; (destruct (O y) as [_ O1]; [rewrite !in_app_iff; tauto|destruct X; lia]).
      * intros y. rewrite !in_app_iff. intros [[Y|Y]|Y].
        -- destruct (O y); [rewrite !in_app_iff; auto|]. split; auto; lia.
        -- destruct (A5 _ Y) as [Y1|[Y1 Y2]]; [|split; auto; lia]. destruct (O y); [rewrite !in_app_iff; auto|]. split; auto; lia.
        -- destruct (O y); [rewrite !in_app_iff; auto|]. split; auto; lia.
    + exists h2, n2, (c1 :: cs'), (F1 ++ G2'). split; [|split; [lia|split; [|split; [|split; [|split]]]]].
      * change (run (fst b) (and_then (body (b, [length done])) (fun _ => loop (S (length done)) (length l) (fun i => body (b, [i])))) h n = Some (tt, h2, n2)).
        rewrite run_bind, R1. rewrite app_length in R2. cbn in R2. rewrite Nat.add_comm in R2. exact R2.
      * rewrite <- app_assoc in C2. exact C2.
      * cbn. constructor; auto. eapply rep_frame; eauto. intros y Hy. apply C6.
        -- intros ->. destruct (A5 _ Hy) as [X|[X1 X2]]; [apply Hnb; rewrite in_app_iff; auto|lia].
        -- intros X. destruct (A5 _ Hy) as [Y|[Y1 Y2]].
           ++ destruct (nodup_disjoint G1 F G y (proj1 Ho) Y); auto.
           ++ destruct Ho as [_ O]. destruct (O y); [rewrite !in_app_iff; auto|lia].
        -- intros [X1 X2]. destruct (A5 _ Hy) as [Y|[Y1 Y2]]; [|lia]. destruct Ho as [_ O]. destruct (O y); [rewrite !in_app_iff; auto|lia].
      * rewrite app_assoc. auto.
      * intros y. rewrite !in_app_iff. intros [Y|Y].
        -- destruct (A5 _ Y); auto. right. eapply fresh_later; [| |left; eauto]; auto.
        -- destruct (C5 _ Y); auto. right. eapply fresh_later; [| |right; eauto]; auto.
      * intros y N1 N2 N3. rewrite in_app_iff in N2. rewrite C6, A6; auto.
        -- intros X. apply N3. eapply fresh_later; [| |left; eauto]; auto.
        -- intros X. apply N3. eapply fresh_later; [| |right; eauto]; auto.
Qed.

Lemma does_range {T} t (R : T -> val) (D : T -> Prop) body f : does t R D body f ->
  does t (vslice R) (fun s => Forall D (elems s)) (fun l => range l body) (option_map (map f)).
Proof.
  intros Hb h n a c0 p c x F Hh HD. unfold range. rewrite !run_bind, (run_elements _ _ _ _ _ _ _ _ _ _ Hh).
  pose proof (holds_range _ _ _ _ _ _ _ _ _ _ Hh) as Q. destruct x as [l|].
  - destruct Q as (b & cs & G & -> & -> & B1 & B2 & B3). cbn in HD.
    destruct Hh as [H1 H2 H3 H4 H5 H6 H7]. destruct H7 as [N O]. inversion N as [|? ? N1 N2]; subst.
    destruct (O b) as [O1 O2]; [cbn; auto|].
    destruct (loop_spec _ R D body f Hb l h n b cs [] [] G) as (h1 & n1 & cs' & G' & E & C1 & C2 & C3 & C4 & C5 & C6); auto.
    { split; auto. intros; apply O; cbn; auto. }
    exists h1, n1, (HSlice (Some b)), (b :: G'). split; [exact E|]. split; auto.
    + rewrite (put_get _ _ _ H4), C6; auto.
      * intros ->. apply H6. cbn; auto.
      * intros X. apply H6. cbn; auto.
      * intros [X1 X2]. lia.
    + cbn. econstructor; [exact C2|exact C3].
    + cbn in C4. constructor; auto. intros X. destruct (C5 _ X) as [?|[? ?]]; auto; lia.
    + intros y [<-|Y]; cbn; auto. destruct (C5 _ Y); auto.
    + intros y M1 M2 M3. cbn in M2. apply C6; auto.
  - destruct Q as [-> ->]. exists h, n, (HSlice None), []. split; auto. eapply effect_refl; eauto.
Qed.

Lemma does_for_each {T} t (R : T -> val) (D : T -> Prop) body f : does t R D body f ->
  does t (vptr (vslice R)) (fun o => forall s, o = Some s -> Forall D (elems s)) (fun l => for_each l body) (each f).
Proof.
  intros Hb. unfold for_each. eapply does_ext; [|eapply does_ifp; [eapply reads_weaken; [|apply reads_set]|eapply does_via, does_range, Hb|]].
  - intros [s|] _; reflexivity.
  - intros; exact I.
  - intros [s|] HD E; [|discriminate]. exists s. auto.
Qed.
