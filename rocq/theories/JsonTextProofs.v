(** What is written is read back. *)
From Verif Require Import Base Types Univ LinkModel Version Numbers NumbersProofs Utf8 Utf8Proofs GobModel JsonModel JsonBack JsonProofs JsonSpec JsonOut JsonText.
From Coq Require Import Lia.
Local Open Scope string_scope.

(** ** Strings *)
Inductive run (esc : bool) : string -> string -> string -> Prop :=
| run_nil : run esc "" "" ""
| run_1 a s u t : one a = true -> run esc s u t -> run esc (String a s) (String a u) (byte_text esc a ++ t)
| run_bad a s u t : run esc s u t -> run esc (String a s) (replacement ++ u) (replacement_text ++ t)
| run_2 a b s u t : two a b = true -> run esc s u t -> run esc (String a (String b s)) (String a (String b u)) (String a (String b t))
| run_3 a b c s u t : three a b c = true -> run esc s u t ->
    run esc (String a (String b (String c s))) (String a (String b (String c u))) (three_text a b c ++ t)
| run_4 a b c d s u t : four a b c d = true -> run esc s u t ->
    run esc (String a (String b (String c (String d s)))) (String a (String b (String c (String d u)))) (String a (String b (String c (String d t)))).
Lemma run_all esc : forall n s, (String.length s <= n)%nat -> run esc s (to_utf8 s) (str_text esc s).
Proof.
  induction n as [|n IH]; intros [|a s1] L; try apply run_nil; [cbn in L; lia|]. cbn [String.length] in L.
  assert (B : run esc (String a s1) (replacement ++ to_utf8 s1) (replacement_text ++ str_text esc s1)) by (apply run_bad, IH; lia).
  cbn [to_utf8 str_text]. destruct (one a) eqn:O1; [apply run_1; [exact O1|apply IH; lia]|].
  destruct s1 as [|b s2]; [exact B|]. cbn [String.length] in L. destruct (two a b) eqn:O2; [apply run_2; [exact O2|apply IH; lia]|].
  destruct s2 as [|c s3]; [exact B|]. cbn [String.length] in L. destruct (three a b c) eqn:O3; [apply run_3; [exact O3|apply IH; lia]|].
  destruct s3 as [|d s4]; [exact B|]. cbn [String.length] in L. destruct (four a b c d) eqn:O4; [apply run_4; [exact O4|apply IH; lia]|exact B].
Qed.
Lemma run_str esc s : run esc s (to_utf8 s) (str_text esc s).
Proof. exact (run_all esc (String.length s) s (le_n _)). Qed.

Definition chunk (t : string) : Prop := forall r, scan_string (t ++ r) = match scan_string r with Some (u, q) => Some (t ++ u, q) | None => None end.
Definition piece (t u : string) : Prop := forall r, unescape (t ++ r) = prepend u (unescape r).
Lemma chunk_nil : chunk "".
Proof. intros r. cbn. destruct (scan_string r) as [[u q]|]; reflexivity. Qed.
Lemma chunk_app a b : chunk a -> chunk b -> chunk (a ++ b).
Proof. intros A B r. rewrite append_assoc, A, B. destruct (scan_string r) as [[u q]|]; [rewrite append_assoc|]; reflexivity. Qed.
Lemma piece_nil : piece "" "".
Proof. intros r. cbn. destruct (unescape r); reflexivity. Qed.
Lemma piece_app a b u v : piece a u -> piece b v -> piece (a ++ b) (u ++ v).
Proof. intros A B r. rewrite append_assoc, A, B. destruct (unescape r); cbn [prepend]; [rewrite append_assoc|]; reflexivity. Qed.

Lemma byte_range a : (byte_of a < 256)%N.
Proof. apply N_ascii_bounded. Qed.
Lemma high_chunk a : one a = false -> chunk (String a "").
Proof.
  intros O r. cbn [append scan_string]. unfold one in O. apply N.ltb_ge in O.
  destruct (Ascii.eqb_spec a dquote) as [->|_]; [vm_compute in O; congruence|]. destruct (N.ltb_spec (byte_of a) 32); [lia|].
  destruct (Ascii.eqb_spec a backslash) as [->|_]; [vm_compute in O; congruence|]. destruct (scan_string r) as [[u q]|]; reflexivity.
Qed.
Lemma high_piece a : one a = false -> piece (String a "") (String a "").
Proof.
  intros O r. cbn [append unescape]. unfold one in O. apply N.ltb_ge in O.
  destruct (Ascii.eqb_spec a backslash) as [->|_]; [vm_compute in O; congruence|]. reflexivity.
Qed.
Definition safe_byte (a : ascii) : bool := negb (Ascii.eqb a dquote) && negb (byte_of a <? 32)%N && negb (Ascii.eqb a backslash).
Fixpoint scannable (t : string) : bool :=
  match t with
  | "" => true
  | String a t' =>
      if Ascii.eqb a backslash then match t' with String b t'' => scannable t'' | "" => false end
      else safe_byte a && scannable t'
  end.
Lemma scannable_chunk : forall n t, (String.length t <= n)%nat -> scannable t = true -> chunk t.
Proof.
  induction n as [|n IH]; intros [|a t] L S; try apply chunk_nil; [cbn in L; lia|]. cbn [String.length] in L. cbn [scannable] in S.
  destruct (Ascii.eqb_spec a backslash) as [->|N].
  - destruct t as [|b t]; [discriminate|]. cbn [String.length] in L. assert (C : chunk t) by (apply IH; [lia|exact S]).
    intros r. cbn [append scan_string]. change (Ascii.eqb backslash dquote) with false. cbv iota. change (byte_of backslash <? 32)%N with false. cbv iota.
    change (Ascii.eqb backslash backslash) with true. cbv iota. rewrite C. destruct (scan_string r) as [[u q]|]; reflexivity.
  - apply andb_prop in S as (A & S). assert (C : chunk t) by (apply IH; [lia|exact S]). unfold safe_byte in A. apply andb_prop in A as (A & _). apply andb_prop in A as (A1 & A2).
    intros r. cbn [append scan_string]. destruct (Ascii.eqb a dquote); [discriminate A1|]. destruct (byte_of a <? 32)%N; [discriminate A2|].
    destruct (Ascii.eqb_spec a backslash); [contradiction|]. rewrite C. destruct (scan_string r) as [[u q]|]; reflexivity.
Qed.
Lemma byte_chunk esc a : one a = true -> chunk (byte_text esc a).
Proof.
  intros O. apply (scannable_chunk _ _ (le_n _)). revert O. destruct a as [[] [] [] [] [] [] [] []]; try discriminate; intros _; destruct esc; reflexivity.
Qed.
Lemma byte_piece esc a : one a = true -> piece (byte_text esc a) (String a "").
Proof.
  destruct a as [[] [] [] [] [] [] [] []]; try discriminate; intros _ r; destruct esc; reflexivity.
Qed.
Lemma three_chunk a b c : three a b c = true -> chunk (three_text a b c).
Proof.
  intros T. unfold three_text. destruct (_ && _ && _)%bool.
  - apply (scannable_chunk _ _ (le_n _)). destruct (byte_of c =? 168)%N; reflexivity.
  - unfold three in T. pose proof T as T'. apply andb_prop in T' as (T1 & T2). apply (chunk_app (String a "") (String b (String c ""))).
    { apply high_chunk, one_false. apply three_first in T. lia. }
    apply (chunk_app (String b "") (String c "")); apply high_chunk, one_false; [|unfold cont in T2; apply between_iff in T2; lia].
    unfold cont in T1. repeat (apply orb_prop in T1 as [T1|T1]); apply andb_prop in T1 as (_ & T1); apply between_iff in T1; lia.
Qed.
Lemma ascii_is n a : (byte_of a =? n)%N = true -> a = ascii_of_N n.
Proof. intros E. apply N.eqb_eq in E. rewrite <- (ascii_N_embedding a). unfold byte_of in E. rewrite E. reflexivity. Qed.
Lemma three_piece a b c : three a b c = true -> piece (three_text a b c) (String a (String b (String c ""))).
Proof.
  intros T. unfold three_text. destruct (_ && _ && _)%bool eqn:E.
  - apply andb_prop in E as (E & E3). apply andb_prop in E as (E1 & E2). apply ascii_is in E1, E2. subst a b.
    apply orb_prop in E3 as [E3|E3]; pose proof (ascii_is _ _ E3) as ->; intros r; reflexivity.
  - pose proof T as T'. apply andb_prop in T' as (T1 & T2). apply (piece_app (String a "") (String b (String c "")) (String a "") (String b (String c ""))).
    { apply high_piece, one_false. apply three_first in T. lia. }
    apply (piece_app (String b "") (String c "") (String b "") (String c "")); apply high_piece, one_false; [|unfold cont in T2; apply between_iff in T2; lia].
    unfold cont in T1. repeat (apply orb_prop in T1 as [T1|T1]); apply andb_prop in T1 as (_ & T1); apply between_iff in T1; lia.
Qed.
Lemma two_high a b : two a b = true -> one a = false /\ one b = false.
Proof. intros T. apply andb_prop in T as (A & B). unfold cont in B. apply between_iff in A, B. split; apply one_false; lia. Qed.
Lemma four_high a b c d : four a b c d = true -> one a = false /\ one b = false /\ one c = false /\ one d = false.
Proof.
  intros T. pose proof (four_first _ _ _ _ T) as F. apply andb_prop in T as (T & D). apply andb_prop in T as (T & C). unfold cont in *. apply between_iff in C, D.
  repeat split; apply one_false; try lia.
  repeat (apply orb_prop in T as [T|T]); apply andb_prop in T as (_ & T); apply between_iff in T; lia.
Qed.
Lemma run_chunk esc s u t : run esc s u t -> chunk t.
Proof.
  induction 1 as [|a s u t O _ IH|a s u t _ IH|a b s u t O _ IH|a b c s u t O _ IH|a b c d s u t O _ IH].
  - apply chunk_nil.
  - apply chunk_app; [apply byte_chunk, O|exact IH].
  - apply chunk_app; [apply (scannable_chunk _ _ (le_n _)); reflexivity|exact IH].
  - destruct (two_high _ _ O). apply (chunk_app (String a "") (String b t)); [|apply (chunk_app (String b "") t)]; auto using high_chunk.
  - apply chunk_app; [apply three_chunk, O|exact IH].
  - destruct (four_high _ _ _ _ O) as (? & ? & ? & ?). apply (chunk_app (String a "") (String b (String c (String d t)))); [|apply (chunk_app (String b "") (String c (String d t))); [|apply (chunk_app (String c "") (String d t)); [|apply (chunk_app (String d "") t)]]]; auto using high_chunk.
Qed.
Lemma run_piece esc s u t : run esc s u t -> piece t u.
Proof.
  induction 1 as [|a s u t O _ IH|a s u t _ IH|a b s u t O _ IH|a b c s u t O _ IH|a b c d s u t O _ IH].
  - apply piece_nil.
  - apply (piece_app _ t (String a "") u); [apply byte_piece, O|exact IH].
  - apply piece_app; [intros r; reflexivity|exact IH].
  - destruct (two_high _ _ O). apply (piece_app (String a "") (String b t) (String a "") (String b u)); [|apply (piece_app (String b "") t (String b "") u)]; auto using high_piece.
  - apply (piece_app _ t (String a (String b (String c ""))) u); [apply three_piece, O|exact IH].
  - destruct (four_high _ _ _ _ O) as (? & ? & ? & ?). apply (piece_app (String a "") (String b (String c (String d t))) (String a "") (String b (String c (String d u)))); [|apply (piece_app (String b "") (String c (String d t)) (String b "") (String c (String d u))); [|apply (piece_app (String c "") (String d t) (String c "") (String d u)); [|apply (piece_app (String d "") t (String d "") u)]]]; auto using high_piece.
Qed.
Lemma utf8_app a b : utf8 a -> utf8 b -> utf8 (a ++ b).
Proof. induction 1; intros B; cbn [append]; [exact B|apply utf8_1|apply utf8_2|apply utf8_3|apply utf8_4]; auto. Qed.
Lemma run_utf8 esc s u t : run esc s u t -> utf8 t.
Proof.
  induction 1 as [|a s u t O _ IH|a s u t _ IH|a b s u t O _ IH|a b c s u t O _ IH|a b c d s u t O _ IH].
  - constructor.
  - apply utf8_app; [|exact IH]. apply ascii_utf8. revert O. destruct a as [[] [] [] [] [] [] [] []]; try discriminate; intros _; destruct esc; reflexivity.
  - apply utf8_app; [apply ascii_utf8; reflexivity|exact IH].
  - apply utf8_2; assumption.
  - apply utf8_app; [|exact IH]. unfold three_text. destruct (_ && _ && _)%bool; [destruct (byte_of c =? 168)%N; apply ascii_utf8; reflexivity|]. apply utf8_3; [exact O|constructor].
  - apply utf8_4; assumption.
Qed.

Lemma parse_quoted esc s r : parse_string (str_text esc s ++ String dquote r) = Some (to_utf8 s, r).
Proof.
  pose proof (run_str esc s) as R. unfold parse_string. rewrite (run_chunk _ _ _ _ R). cbn [scan_string]. change (Ascii.eqb dquote dquote) with true. cbv iota.
  rewrite append_nil_r, (to_utf8_valid _ (run_utf8 _ _ _ _ R)). pose proof (run_piece _ _ _ _ R "") as P. rewrite append_nil_r in P. rewrite P.
  cbn [unescape prepend]. rewrite append_nil_r. reflexivity.
Qed.
