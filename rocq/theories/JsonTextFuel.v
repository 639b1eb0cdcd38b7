(** The fuel of the JSON parser is always enough. *)
From Verif Require Import Base Types Univ LinkModel Version Numbers NumbersProofs Utf8 GobModel JsonModel JsonText JsonTextProofs JsonTextRound.
From Coq Require Import Lia.
Local Open Scope string_scope.
(** More fuel changes nothing once there is a result, and a text never needs more than [enough]. *)
Definition len := String.length.
Lemma skip_len s : len (skip_space s) <= len s.
Proof. induction s as [|a s IH]; [trivial|]. cbn. destruct (is_space a); cbn; unfold len in *; lia. Qed.
Lemma scan_len s : forall t r, scan_string s = Some (t, r) -> len r < len s.
Proof.
  assert (H : forall n s, (len s <= n)%nat -> forall t r, scan_string s = Some (t, r) -> (len r < len s)%nat).
  { clear. induction n as [|n IH]; intros s L t r E; [destruct s; [discriminate|cbn in L; lia]|].
    destruct s as [|a s]; [discriminate|]. cbn in E, L |- *. destruct (Ascii.eqb a dquote); [injection E as <- <-; unfold len; lia|].
    destruct (byte_of a <? 32)%N; [discriminate|]. destruct (Ascii.eqb a backslash).
    - destruct s as [|b s]; [discriminate|]. destruct (scan_string s) as [[t' r']|] eqn:F; [|discriminate]. injection E as <- <-. apply IH in F; cbn in L |- *; unfold len in *; lia.
    - destruct (scan_string s) as [[t' r']|] eqn:F; [|discriminate]. injection E as <- <-. apply IH in F; unfold len in *; lia. }
  apply (H (len s)). trivial.
Qed.
Lemma parse_string_len s t r : parse_string s = Some (t, r) -> len r < len s.
Proof. unfold parse_string. destruct (scan_string s) as [[x y]|] eqn:E; [|discriminate]. destruct (unescape _); [|discriminate]. intros [= <- <-]. eapply scan_len, E. Qed.
Lemma strip_len p s r : strip_prefix p s = Some r -> len p + len r = len s.
Proof. revert s r. induction p as [|a p IH]; intros s r; cbn; [intros [= ->]; reflexivity|]. destruct s as [|b s]; [discriminate|]. destruct (Ascii.eqb a b); [|discriminate]. intros E. apply IH in E. cbn. unfold len in *. lia. Qed.
Lemma span_len s n r : span_num s = (n, r) -> len n + len r = len s.
Proof. revert n r. induction s as [|a s IH]; intros n r; cbn; [intros [= <- <-]; reflexivity|]. destruct (num_char a); [|intros [= <- <-]; reflexivity]. destruct (span_num s) as [d q]. intros [= <- <-]. cbn. specialize (IH _ _ eq_refl). unfold len in *. lia. Qed.
Lemma literal_len p j0 s j r : literal p j0 s = Some (j, r) -> len p + len r = len s.
Proof. unfold literal. destruct (strip_prefix p s) as [q|] eqn:E; [|discriminate]. intros [= <- <-]. eapply strip_len, E. Qed.
Lemma number_nonempty : json_number "" = false.
Proof. reflexivity. Qed.

Definition value_ok f := forall s j r, parse_value f s = Some (j, r) -> len r < len s /\ forall g, 2 * len s + 1 <= g -> parse_value g s = Some (j, r).
Definition members_ok f := forall s ms r, parse_members f s = Some (ms, r) -> len r < len s /\ forall g, 2 * len s + 2 <= g -> parse_members g s = Some (ms, r).
Definition elements_ok f := forall s l r, parse_elements f s = Some (l, r) -> len r < len s /\ forall g, 2 * len s + 2 <= g -> parse_elements g s = Some (l, r).
Lemma skip_cons s a s' : skip_space s = String a s' -> len s' < len s.
Proof. intros E. pose proof (skip_len s) as L. rewrite E in L. cbn in L. unfold len in *. lia. Qed.
Lemma value_step f : value_ok f -> members_ok f -> elements_ok f -> value_ok (S f).
Proof.
  intros V M L s j r. cbn [parse_value]. destruct (skip_space s) as [|a s'] eqn:K; [discriminate|]. pose proof (skip_cons _ _ _ K) as Ks.
  assert (G : forall (res : nat -> option (json * string)), (forall g, parse_value (S g) s = res g) -> res f = Some (j, r) ->
     (len r < len s /\ (forall g, 2 * len s <= g -> res g = Some (j, r))) -> len r < len s /\ forall g, 2 * len s + 1 <= g -> parse_value g s = Some (j, r)).
  { intros res Hr _ (A & B). split; [exact A|]. intros g Lg. destruct g as [|g]; [lia|]. rewrite Hr. apply B. lia. }
  destruct (Ascii.eqb a "{") eqn:A1.
  - intros E. eapply G; [intros g; cbn [parse_value]; rewrite K, A1; reflexivity|exact E|]. revert E. cbv beta.
    destruct (skip_space s') as [|c s2] eqn:K2.
    + destruct (parse_members f s') as [[ms q]|] eqn:P; [|discriminate]. intros [= <- <-]. apply M in P as (P & Q). split; [unfold len in *; lia|]. intros g Lg. rewrite Q by (unfold len in *; lia). reflexivity.
    + pose proof (skip_cons _ _ _ K2) as Ks2.
      assert (D : match parse_members f s' with Some (ms, r) => Some (JObj ms, r) | None => None end = Some (j, r) ->
         len r < len s /\ (forall g, 2 * len s <= g -> match parse_members g s' with Some (ms, r) => Some (JObj ms, r) | None => None end = Some (j, r))).
      { destruct (parse_members f s') as [[ms q]|] eqn:P; [|discriminate]. intros [= <- <-]. apply M in P as (P & Q). split; [unfold len in *; lia|]. intros g Lg. rewrite Q by (unfold len in *; lia). reflexivity. }
      destruct c as [[] [] [] [] [] [] [] []]; try exact D. intros [= <- <-]. split; [unfold len in *; lia|reflexivity].
  - destruct (Ascii.eqb a "[") eqn:A2.
    + intros E. eapply G; [intros g; cbn [parse_value]; rewrite K, A1, A2; reflexivity|exact E|]. revert E. cbv beta.
      assert (D : match parse_elements f s' with Some (l, r) => Some (JArr l, r) | None => None end = Some (j, r) ->
         len r < len s /\ (forall g, 2 * len s <= g -> match parse_elements g s' with Some (l, r) => Some (JArr l, r) | None => None end = Some (j, r))).
      { destruct (parse_elements f s') as [[ms q]|] eqn:P; [|discriminate]. intros [= <- <-]. apply L in P as (P & Q). split; [unfold len in *; lia|]. intros g Lg. rewrite Q by (unfold len in *; lia). reflexivity. }
      destruct (skip_space s') as [|c s2] eqn:K2; [exact D|]. pose proof (skip_cons _ _ _ K2) as Ks2.
      destruct c as [[] [] [] [] [] [] [] []]; try exact D. intros [= <- <-]. split; [unfold len in *; lia|reflexivity].
    + intros E. enough (R : len r < len s).
      { split; [exact R|]. intros [|g] Lg; [lia|]. cbn [parse_value]. rewrite K, A1, A2. exact E. }
      assert (Ls : len (String a s') <= len s) by (rewrite <- K; apply skip_len).
      destruct (Ascii.eqb a dquote).
      { destruct (parse_string s') as [[t q]|] eqn:P; [|discriminate]. injection E as <- <-. apply parse_string_len in P. cbn in Ls. unfold len in *. lia. }
      destruct (Ascii.eqb a "n"); [apply literal_len in E; change (len "null") with 4 in E; lia|].
      destruct (Ascii.eqb a "t"); [apply literal_len in E; change (len "true") with 4 in E; lia|].
      destruct (Ascii.eqb a "f"); [apply literal_len in E; change (len "false") with 5 in E; lia|].
      destruct (span_num (String a s')) as [n q] eqn:P. destruct (json_number n) eqn:N; [|discriminate]. injection E as <- <-. apply span_len in P.
      destruct n as [|c n]; [rewrite number_nonempty in N; discriminate|]. cbn [len String.length] in P. unfold len in *. cbn [String.length] in *. lia.
Qed.
Lemma members_step f : value_ok f -> members_ok f -> members_ok (S f).
Proof.
  intros V M s ms r E. cbn [parse_members] in E. destruct (skip_space s) as [|a s1] eqn:K; [discriminate|]. pose proof (skip_cons _ _ _ K) as Ks.
  destruct (negb (Ascii.eqb a dquote)) eqn:A; [discriminate|]. destruct (parse_string s1) as [[k s2]|] eqn:P; [|discriminate]. pose proof (parse_string_len _ _ _ P) as Ps.
  destruct (skip_space s2) as [|c s3] eqn:K2; [discriminate|]. pose proof (skip_cons _ _ _ K2) as Ks2.
  assert (C : c = ":"%char) by (destruct c as [[] [] [] [] [] [] [] []]; try discriminate E; reflexivity). subst c.
  destruct (parse_value f s3) as [[v s4]|] eqn:F; [|discriminate]. apply V in F as (F & F').
  destruct (skip_space s4) as [|c s5] eqn:K4; [discriminate|]. pose proof (skip_cons _ _ _ K4) as Ks4.
  destruct (Ascii.eqb c "}") eqn:C1.
  { apply Ascii.eqb_eq in C1. subst c. injection E as <- <-. split; [unfold len in *; lia|]. intros [|g] Lg; [lia|]. cbn [parse_members].
    rewrite K, A, P, K2, F' by (unfold len in *; lia). rewrite K4. reflexivity. }
  destruct (Ascii.eqb c ",") eqn:C2.
  { apply Ascii.eqb_eq in C2. subst c. destruct (parse_members f s5) as [[ms' r']|] eqn:Q; [|discriminate]. injection E as <- <-. apply M in Q as (Q & Q').
    split; [unfold len in *; lia|]. intros [|g] Lg; [lia|]. cbn [parse_members]. rewrite K, A, P, K2, F' by (unfold len in *; lia). rewrite K4, Q' by (unfold len in *; lia). reflexivity. }
  exfalso. destruct c as [[] [] [] [] [] [] [] []]; try discriminate E; try discriminate C1; discriminate C2.
Qed.
Lemma elements_step f : value_ok f -> elements_ok f -> elements_ok (S f).
Proof.
  intros V M s l r E. cbn [parse_elements] in E. destruct (parse_value f s) as [[v s1]|] eqn:F; [|discriminate]. apply V in F as (F & F').
  destruct (skip_space s1) as [|c s5] eqn:K4; [discriminate|]. pose proof (skip_cons _ _ _ K4) as Ks4.
  destruct (Ascii.eqb c "]") eqn:C1.
  { apply Ascii.eqb_eq in C1. subst c. injection E as <- <-. split; [unfold len in *; lia|]. intros [|g] Lg; [lia|]. cbn [parse_elements].
    rewrite F' by (unfold len in *; lia). rewrite K4. reflexivity. }
  destruct (Ascii.eqb c ",") eqn:C2.
  { apply Ascii.eqb_eq in C2. subst c. destruct (parse_elements f s5) as [[ms' r']|] eqn:Q; [|discriminate]. injection E as <- <-. apply M in Q as (Q & Q').
    split; [unfold len in *; lia|]. intros [|g] Lg; [lia|]. cbn [parse_elements]. rewrite F' by (unfold len in *; lia). rewrite K4, Q' by (unfold len in *; lia). reflexivity. }
  exfalso. destruct c as [[] [] [] [] [] [] [] []]; try discriminate E; try discriminate C1; discriminate C2.
Qed.
Lemma all_ok f : value_ok f /\ members_ok f /\ elements_ok f.
Proof.
  induction f as [|f (V & M & L)]; [split; [|split]; intros ? ? ? E; discriminate|].
  split; [apply value_step|split; [apply members_step|apply elements_step]]; assumption.
Qed.
(** The fuel of [parse] is never what makes it fail. *)
Lemma parse_complete f s j r : parse_value f s = Some (j, r) -> skip_space r = "" -> parse s = Some j.
Proof.
  intros P R. destruct (proj1 (all_ok f) s j r P) as (_ & H). unfold parse. rewrite H by (unfold enough, len; lia). rewrite R. reflexivity.
Qed.
