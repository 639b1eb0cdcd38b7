From Verif Require Import Base Utf8.
From Coq Require Import Lia.
Local Open Scope string_scope.
Local Open Scope N_scope.

Lemma between_iff lo hi c : between lo hi c = true <-> lo <= byte_of c <= hi.
Proof. unfold between. rewrite andb_true_iff, !N.leb_le. reflexivity. Qed.
Lemma between_false lo hi c : between lo hi c = false <-> ~ (lo <= byte_of c <= hi).
Proof. rewrite <- between_iff. destruct (between lo hi c); split; congruence. Qed.

Lemma one_iff a : one a = true <-> byte_of a < 0x80.
Proof. apply N.ltb_lt. Qed.
Lemma two_first a b : two a b = true -> 0xC2 <= byte_of a <= 0xDF.
Proof. unfold two. rewrite andb_true_iff, between_iff. tauto. Qed.
Lemma three_first a b c : three a b c = true -> 0xE0 <= byte_of a <= 0xEF.
Proof. unfold three, cont. rewrite !andb_true_iff, !orb_true_iff, !andb_true_iff, !between_iff. lia. Qed.
Lemma four_first a b c d : four a b c d = true -> 0xF0 <= byte_of a <= 0xF4.
Proof. unfold four, cont. rewrite !andb_true_iff, !orb_true_iff, !andb_true_iff, !between_iff. lia. Qed.
Lemma one_false a : 0x80 <= byte_of a -> one a = false.
Proof. intros H. destruct (one a) eqn:E; [apply one_iff in E; lia|reflexivity]. Qed.
Lemma two_false a b : ~ (0xC2 <= byte_of a <= 0xDF) -> two a b = false.
Proof. intros H. destruct (two a b) eqn:E; [apply two_first in E; lia|reflexivity]. Qed.
Lemma three_false a b c : ~ (0xE0 <= byte_of a <= 0xEF) -> three a b c = false.
Proof. intros H. destruct (three a b c) eqn:E; [apply three_first in E; lia|reflexivity]. Qed.

Lemma to_utf8_valid s : utf8 s -> to_utf8 s = s.
Proof.
  induction 1 as [|a s H _ IH|a b s H _ IH|a b c s H _ IH|a b c d s H _ IH].
  - reflexivity.
  - cbn [to_utf8]. rewrite H, IH. reflexivity.
  - pose proof (two_first a b H). cbn [to_utf8]. rewrite one_false by lia. rewrite H, IH. reflexivity.
  - pose proof (three_first a b c H). cbn [to_utf8]. rewrite one_false by lia. rewrite two_false by lia. rewrite H, IH. reflexivity.
  - pose proof (four_first a b c d H). cbn [to_utf8]. rewrite one_false by lia. rewrite two_false by lia. rewrite three_false by lia.
    rewrite H, IH. reflexivity.
Qed.

Lemma utf8_replacement s : utf8 s -> utf8 (replacement ++ s).
Proof. intros H. apply utf8_3; [reflexivity|exact H]. Qed.

Lemma to_utf8_ok s : utf8 (to_utf8 s).
Proof.
  assert (G : forall n s, (String.length s <= n)%nat -> utf8 (to_utf8 s)).
  { clear s. induction n as [|n IH]; intros s L.
    - destruct s; [constructor|cbn in L; lia].
    - destruct s as [|a s1]; [constructor|]. cbn in L. cbn [to_utf8].
      destruct (one a) eqn:E1; [apply utf8_1; [exact E1|apply IH; lia]|].
      assert (R : utf8 (replacement ++ to_utf8 s1)) by (apply utf8_replacement, IH; lia).
      destruct s1 as [|b s2]; [exact R|]. cbn in L.
      destruct (two a b) eqn:E2; [apply utf8_2; [exact E2|apply IH; lia]|].
      destruct s2 as [|c s3]; [exact R|]. cbn in L.
      destruct (three a b c) eqn:E3; [apply utf8_3; [exact E3|apply IH; lia]|].
      destruct s3 as [|d s4]; [exact R|]. cbn in L.
      destruct (four a b c d) eqn:E4; [apply utf8_4; [exact E4|apply IH; lia]|exact R]. }
  apply (G (String.length s)). lia.
Qed.

Lemma utf8_iff s : utf8 s <-> to_utf8 s = s.
Proof. split; [apply to_utf8_valid|]. intros <-. apply to_utf8_ok. Qed.

Lemma to_utf8_twice s : to_utf8 (to_utf8 s) = to_utf8 s.
Proof. apply to_utf8_valid, to_utf8_ok. Qed.

Lemma to_utf8_empty s : to_utf8 s = "" <-> s = "".
Proof.
  split; [|intros ->; reflexivity]. destruct s as [|a s]; [reflexivity|]. cbn [to_utf8].
  destruct (one a); [discriminate|]. destruct s as [|b s]; [discriminate|]. destruct (two a b); [discriminate|].
  destruct s as [|c s]; [discriminate|]. destruct (three a b c); [discriminate|]. destruct s as [|d s]; [discriminate|].
  destruct (four a b c d); discriminate.
Qed.

Lemma str_all_ascii s : str_all one s = true -> utf8 s.
Proof. induction s as [|a s IH]; cbn; [constructor|]. intros H. apply andb_prop in H as (H1 & H2). apply utf8_1; auto. Qed.
