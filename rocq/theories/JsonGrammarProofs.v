(** The parser accepts exactly the texts of the grammar and gives their trees: for C40. *)
From Verif Require Import Base Types Univ LinkModel LinkSpec LinkProofs Version Numbers NumbersProofs Utf8 GobModel JsonModel JsonText JsonTextProofs JsonTextRound JsonTextFuel JsonGrammar.
From Coq Require Import Lia.
Local Open Scope string_scope.

Lemma app_nil (s : string) : s ++ "" = s.
Proof. induction s as [|a s IH]; cbn; [reflexivity|]. rewrite IH. reflexivity. Qed.
Lemma app_app (a b c : string) : (a ++ b) ++ c = a ++ b ++ c.
Proof. induction a as [|x a IH]; cbn; [reflexivity|]. rewrite IH. reflexivity. Qed.
Lemma strings (P : string -> Prop) : (forall s, (forall t, len t < len s -> P t) -> P s) -> forall s, P s.
Proof.
  intros H. assert (G : forall n s, len s < n -> P s).
  { induction n as [|n IH]; intros s L; [lia|]. apply H. intros t T. apply IH. lia. }
  intros s. apply (G (S (len s))). lia.
Qed.

(** ** White space *)
Lemma space_in a : is_space a = true <-> In a [" "; "009"; "010"; "013"]%char.
Proof.
  split.
  - destruct a as [[] [] [] [] [] [] [] []]; intros H; try discriminate H; cbn; auto.
  - intros H. cbn in H. destruct H as [<-|[<-|[<-|[<-|[]]]]]; reflexivity.
Qed.
Lemma skip_split s : exists w, white w /\ s = w ++ skip_space s.
Proof.
  induction s as [|a s (w & W & E)]; [exists ""; split; [constructor|reflexivity]|]. cbn [skip_space]. destruct (is_space a) eqn:A.
  - exists (String a w). split; [constructor; [apply space_in, A|exact W]|]. cbn [append]. congruence.
  - exists "". split; [constructor|reflexivity].
Qed.
Lemma skip_white w s : white w -> skip_space (w ++ s) = skip_space s.
Proof. induction 1 as [|a w A _ IH]; [reflexivity|]. cbn [append skip_space]. apply space_in in A. rewrite A. exact IH. Qed.
Lemma white_skip s : skip_space s = "" -> white s.
Proof. intros E. destruct (skip_split s) as (w & W & Q). rewrite E, app_nil in Q. rewrite Q. exact W. Qed.
Lemma skip_head s a t : skip_space s = String a t -> is_space a = false.
Proof. induction s as [|b s IH]; cbn [skip_space]; [discriminate|]. destruct (is_space b) eqn:B; [exact IH|]. intros [= <- <-]. exact B. Qed.
Lemma skip_stop a s : is_space a = false -> skip_space (String a s) = String a s.
Proof. intros A. cbn [skip_space]. rewrite A. reflexivity. Qed.

(** ** Strings *)
Lemma scan_sound : forall s t r, scan_string s = Some (t, r) -> unbroken t /\ s = t ++ String dquote r.
Proof.
  induction s as [s IH] using strings. intros t r E. destruct s as [|a s]; [discriminate|]. cbn [scan_string] in E.
  destruct (Ascii.eqb_spec a dquote) as [->|Q]; [injection E as <- <-; split; [constructor|reflexivity]|].
  destruct (N.ltb_spec (byte_of a) 32) as [|L]; [discriminate|]. destruct (Ascii.eqb_spec a backslash) as [->|B].
  - destruct s as [|b s]; [discriminate|]. destruct (scan_string s) as [[t' r']|] eqn:F; [|discriminate]. injection E as <- <-.
    apply IH in F as (U & ->); [|unfold len; cbn; lia]. split; [constructor; exact U|reflexivity].
  - destruct (scan_string s) as [[t' r']|] eqn:F; [|discriminate]. injection E as <- <-.
    apply IH in F as (U & ->); [|unfold len; cbn; lia]. split; [constructor; assumption|reflexivity].
Qed.
Lemma scan_complete t r : unbroken t -> scan_string (t ++ String dquote r) = Some (t, r).
Proof.
  induction 1 as [|a s Q B L _ IH|b s _ IH].
  - reflexivity.
  - cbn [append scan_string]. destruct (Ascii.eqb_spec a dquote); [contradiction|]. destruct (N.ltb_spec (byte_of a) 32); [lia|].
    destruct (Ascii.eqb_spec a backslash); [contradiction|]. rewrite IH. reflexivity.
  - cbn [append]. change (scan_string (String backslash (String b (s ++ String dquote r)))) with
      (match scan_string (s ++ String dquote r) with Some (t, r) => Some (String backslash (String b t), r) | None => None end). rewrite IH. reflexivity.
Qed.

Lemma hex_spec a n : hex_value a = Some n <-> hexadecimal a n.
Proof.
  unfold hex_value, hexadecimal. cbv zeta. set (b := byte_of a). clearbody b.
  destruct (N.leb_spec 48 b), (N.leb_spec b 57), (N.leb_spec 97 b), (N.leb_spec b 102), (N.leb_spec 65 b), (N.leb_spec b 70); cbn [andb]; split; intros Q;
    try discriminate Q; try (injection Q as <-); try (f_equal); try lia.
Qed.
Lemma hex4_spec a b c d n : hex4 a b c d = Some n <-> unit_of (String a (String b (String c (String d "")))) n.
Proof.
  unfold hex4, unit_of. split.
  - destruct (hex_value a) as [w|] eqn:A; [|discriminate]. destruct (hex_value b) as [x|] eqn:B; [|discriminate]. destruct (hex_value c) as [y|] eqn:C; [|discriminate].
    destruct (hex_value d) as [z|] eqn:D; [|discriminate]. intros [= <-]. apply hex_spec in A, B, C, D. exists a, b, c, d, w, x, y, z. repeat split; trivial. lia.
  - intros (a' & b' & c' & d' & w & x & y & z & [= <- <- <- <-] & A & B & C & D & ->). apply hex_spec in A, B, C, D. rewrite A, B, C, D. f_equal. lia.
Qed.
Lemma high_spec n : high n = true <-> high_half n.
Proof. unfold high, high_half. rewrite Bool.andb_true_iff, N.leb_le, N.ltb_lt. reflexivity. Qed.
Lemma low_spec n : low n = true <-> low_half n.
Proof. unfold low, low_half. rewrite Bool.andb_true_iff, N.leb_le, N.ltb_lt. reflexivity. Qed.
Lemma letter_spec b c : simple_escape b = Some c <-> In (b, c) letter_escapes.
Proof.
  split.
  - destruct b as [[] [] [] [] [] [] [] []]; intros H; try discriminate H; injection H as <-; cbn; auto 10.
  - intros H. cbn in H. repeat (destruct H as [[= <- <-]|H]; [reflexivity|]). contradiction.
Qed.
Lemma prepend_some p r m : prepend p r = Some m <-> exists s, r = Some s /\ m = p ++ s.
Proof. unfold prepend. destruct r as [s|]; [split; [intros [= <-]; exists s; auto|intros (s' & [= <-] & ->); reflexivity]|]. split; [discriminate|intros (s & Q & _); discriminate Q]. Qed.
Lemma unescape_sound : forall t s, unescape t = Some s -> content t s.
Proof.
  induction t as [t IH] using strings. intros s E. destruct t as [|a t]; [injection E as <-; constructor|]. cbn [unescape] in E.
  destruct (Ascii.eqb_spec a backslash) as [->|B]; cbn [negb] in E.
  2: { apply prepend_some in E as (s' & E & ->). apply IH in E; [|unfold len; cbn; lia]. cbn [append]. constructor; assumption. }
  destruct t as [|b t]; [discriminate|]. destruct (Ascii.eqb_spec b "u") as [->|U]; cbn [negb] in E.
  2: { destruct (simple_escape b) as [c|] eqn:S; [|discriminate]. apply letter_spec in S. apply prepend_some in E as (s' & E & ->). apply IH in E; [|unfold len; cbn; lia].
       cbn [append]. constructor; assumption. }
  destruct t as [|h1 [|h2 [|h3 [|h4 t]]]]; try discriminate E. destruct (hex4 h1 h2 h3 h4) as [n|] eqn:H; [|discriminate]. apply hex4_spec in H.
  set (h := String h1 (String h2 (String h3 (String h4 "")))) in *. change (String h1 (String h2 (String h3 (String h4 t)))) with (h ++ t).
  assert (It : forall s, unescape t = Some s -> content t s) by (intros s' F; apply IH; [unfold len; cbn; lia|exact F]).
  destruct (high n) eqn:Hn.
  - apply high_spec in Hn.
    assert (Alone : (forall l m t', t = String backslash (String "u" (l ++ t')) -> unit_of l m -> ~ low_half m) -> prepend replacement (unescape t) = Some s -> content (String backslash (String "u" (h ++ t))) s).
    { intros N F. apply prepend_some in F as (s' & F & ->). eapply co_high; [exact H|exact Hn|exact N|apply It, F]. }
    destruct t as [|e [|u [|k1 [|k2 [|k3 [|k4 t']]]]]].
    1-6: (apply Alone; [|exact E]; intros l m t0 Q (x1 & x2 & x3 & x4 & _ & _ & _ & _ & -> & _); discriminate Q).
    destruct (Ascii.eqb_spec e backslash) as [->|Ne], (Ascii.eqb_spec u "u") as [->|Nu]; cbn [andb] in E.
    2-4: (apply Alone; [|exact E]; intros l m t0 Q _; injection Q; intros; congruence).
    assert (L : forall l m t0, String backslash (String "u" (String k1 (String k2 (String k3 (String k4 t'))))) = String backslash (String "u" (l ++ t0)) -> unit_of l m -> l = String k1 (String k2 (String k3 (String k4 ""))) /\ t0 = t').
    { intros l m t0 Q (x1 & x2 & x3 & x4 & _ & _ & _ & _ & -> & _). cbn [append] in Q. injection Q as <- <- <- <- <-. auto. }
    destruct (hex4 k1 k2 k3 k4) as [q|] eqn:K.
    + destruct (low q) eqn:Lq.
      * apply prepend_some in E as (s' & E & ->). apply hex4_spec in K. apply low_spec in Lq.
        unfold pair_rune. replace ((n - 55296) * 1024 + (q - 56320) + 65536)%N with (0x10000 + (n - 0xD800) * 0x400 + (q - 0xDC00))%N by lia.
        apply (co_pair h (String k1 (String k2 (String k3 (String k4 ""))))); trivial. apply IH; [unfold len; cbn; lia|exact E].
      * apply Alone; [|exact E]. intros l m t0 Q Um. destruct (L _ _ _ Q Um) as (-> & ->). apply hex4_spec in Um. rewrite K in Um. injection Um as <-. intros M. apply low_spec in M. congruence.
    + apply Alone; [|exact E]. intros l m t0 Q Um. destruct (L _ _ _ Q Um) as (-> & ->). apply hex4_spec in Um. congruence.
  - assert (Nn : ~ high_half n) by (intros Q; apply high_spec in Q; congruence). destruct (low n) eqn:Ln.
    + apply prepend_some in E as (s' & E & ->). eapply co_low; [exact H|apply low_spec, Ln|apply It, E].
    + apply prepend_some in E as (s' & E & ->). eapply co_unit; [exact H|exact Nn|intros Q; apply low_spec in Q; congruence|apply It, E].
Qed.
Lemma unit_bytes h n : unit_of h n -> exists a b c d, h = String a (String b (String c (String d ""))) /\ hex4 a b c d = Some n.
Proof. intros U. pose proof U as (a & b & c & d & _ & _ & _ & _ & -> & _). exists a, b, c, d. split; [reflexivity|]. apply hex4_spec, U. Qed.
Lemma unescape_complete t s : content t s -> unescape t = Some s.
Proof.
  induction 1 as [|a t s B _ IH|b c t s L _ IH|h n t s U Nh Nl _ IH|h l n m t s U Hh V Hl _ IH|h n t s U Hl _ IH|h n t s U Hh N _ IH].
  - reflexivity.
  - cbn [unescape]. destruct (Ascii.eqb_spec a backslash); [contradiction|]. cbn [negb]. rewrite IH. reflexivity.
  - assert (Q : Ascii.eqb b "u" = false) by (cbn in L; repeat (destruct L as [[= <- <-]|L]; [reflexivity|]); contradiction).
    apply letter_spec in L. cbn [unescape]. rewrite Ascii.eqb_refl, Q, L, IH. reflexivity.
  - destruct (unit_bytes _ _ U) as (a & b & c & d & -> & H). cbn [append unescape]. rewrite Ascii.eqb_refl. cbn [negb]. change (Ascii.eqb "u" "u") with true. cbn [negb]. rewrite H, IH.
    destruct (high n) eqn:Q; [apply high_spec in Q; contradiction|]. destruct (low n) eqn:Q'; [apply low_spec in Q'; contradiction|]. reflexivity.
  - destruct (unit_bytes _ _ U) as (a & b & c & d & -> & H). destruct (unit_bytes _ _ V) as (a' & b' & c' & d' & -> & H').
    cbn [append unescape]. rewrite Ascii.eqb_refl. change (Ascii.eqb "u" "u") with true. cbn [negb andb]. rewrite H, H', IH.
    apply high_spec in Hh. apply low_spec in Hl. rewrite Hh, Hl. cbn [prepend]. do 3 f_equal. unfold pair_rune. lia.
  - destruct (unit_bytes _ _ U) as (a & b & c & d & -> & H). cbn [append unescape]. rewrite Ascii.eqb_refl. change (Ascii.eqb "u" "u") with true. cbn [negb]. rewrite H, IH.
    destruct (high n) eqn:Q; [apply high_spec in Q; unfold high_half, low_half in *; lia|]. apply low_spec in Hl. rewrite Hl. reflexivity.
  - destruct (unit_bytes _ _ U) as (a & b & c & d & -> & H). cbn [append unescape]. rewrite Ascii.eqb_refl. change (Ascii.eqb "u" "u") with true. cbn [negb]. rewrite H.
    apply high_spec in Hh. rewrite Hh.
    assert (R : prepend replacement (unescape t) = Some (replacement ++ s)) by (rewrite IH; reflexivity).
    destruct t as [|e [|u [|k1 [|k2 [|k3 [|k4 t']]]]]]; try exact R.
    destruct (Ascii.eqb_spec e backslash) as [->|]; [|exact R]. destruct (Ascii.eqb_spec u "u") as [->|]; [|exact R]. cbn [andb].
    destruct (hex4 k1 k2 k3 k4) as [q|] eqn:K; [|exact R]. destruct (low q) eqn:Lq; [|exact R]. exfalso.
    apply (N (String k1 (String k2 (String k3 (String k4 "")))) q t' eq_refl); [apply hex4_spec, K|apply low_spec, Lq].
Qed.
Lemma string_sound s m r : parse_string s = Some (m, r) -> exists q, string_token q m /\ String dquote s = q ++ r.
Proof.
  unfold parse_string. destruct (scan_string s) as [[t r']|] eqn:S; [|discriminate]. apply scan_sound in S as (U & ->).
  destruct (unescape (to_utf8 t)) as [u|] eqn:E; [|discriminate]. intros [= -> ->]. apply unescape_sound in E.
  exists (String dquote (t ++ String dquote "")). split; [constructor; assumption|]. cbn [append]. rewrite app_app. reflexivity.
Qed.
Lemma string_complete q m r : string_token q m -> exists s, q ++ r = String dquote s /\ parse_string s = Some (m, r).
Proof.
  intros H. destruct H as [t s U C]. exists (t ++ String dquote r). split; [cbn [append]; rewrite app_app; reflexivity|].
  unfold parse_string. rewrite (scan_complete t r U), (unescape_complete _ _ C). reflexivity.
Qed.

(** ** Numbers *)
Definition no_digit (s : string) : Prop := match s with String a _ => is_digit a = false | "" => True end.
Lemma span_sound s : forall d r, span_digits s = (d, r) -> s = d ++ r /\ (d = "" \/ JsonGrammar.digits d) /\ no_digit r.
Proof.
  induction s as [|a s IH]; intros d r E; cbn [span_digits] in E; [injection E as <- <-; repeat split; auto|].
  destruct (is_digit a) eqn:A; [|injection E as <- <-; repeat split; auto]. destruct (span_digits s) as [d' r'] eqn:F. injection E as <- <-.
  destruct (IH _ _ eq_refl) as (-> & D & N). repeat split; [|exact N]. right. destruct D as [->|D]; [constructor; exact A|constructor; assumption].
Qed.
Lemma span_complete d r : JsonGrammar.digits d -> no_digit r -> span_digits (d ++ r) = (d, r).
Proof.
  intros D N. assert (Z : span_digits r = ("", r)) by (destruct r as [|a r]; [reflexivity|]; cbn [span_digits]; cbn in N; rewrite N; reflexivity).
  induction D as [a A|a s A _ IH]; cbn [append span_digits]; rewrite A; [rewrite Z|rewrite IH]; reflexivity.
Qed.
Lemma digits_cons d : JsonGrammar.digits d -> exists a s, d = String a s /\ is_digit a = true.
Proof. intros H. destruct H; eauto. Qed.
Lemma digits_no_nil : ~ JsonGrammar.digits "".
Proof. intros H. inversion H. Qed.
Lemma exponent_spec s : (exists x, parse_exponent s = Some x) <-> exponent s.
Proof.
  unfold exponent. split.
  - intros (x & E). destruct s as [|a r]; [left; reflexivity|right]. unfold parse_exponent in E. destruct (Ascii.eqb a "e" || Ascii.eqb a "E")%bool eqn:A; [|discriminate].
    assert (Ha : a = "e"%char \/ a = "E"%char) by (apply Bool.orb_true_iff in A as [A|A]; apply Ascii.eqb_eq in A; auto).
    assert (G : forall (neg : bool) q, match span_digits q with (String b d, "") => Some (let x := Z.of_N (digits_N (String b d)) in if neg then (- x)%Z else x) | _ => None end = Some x -> JsonGrammar.digits q).
    { intros neg q F. destruct (span_digits q) as [d q'] eqn:S. apply span_sound in S as (-> & D & _). destruct d as [|b d]; [discriminate|]. destruct q'; [|discriminate].
      rewrite app_nil. destruct D as [D|D]; [discriminate|exact D]. }
    destruct r as [|b r].
    + discriminate E.
    + destruct (Ascii.eqb_spec b "-") as [->|N1]; [exists a, "-", r; repeat split; trivial; [auto|exact (G true r E)]|].
      destruct (Ascii.eqb_spec b "+") as [->|N2]; [exists a, "+", r; repeat split; trivial; [auto|exact (G false r E)]|].
      exists a, "", (String b r). repeat split; trivial; auto. apply (G false).
      destruct b as [[] [] [] [] [] [] [] []]; first [exact E|exfalso; apply N1; reflexivity|exfalso; apply N2; reflexivity].
  - intros [->|(e & g & d & -> & He & Hg & D)]; [eexists; reflexivity|]. unfold parse_exponent.
    assert (A : (Ascii.eqb e "e" || Ascii.eqb e "E")%bool = true) by (destruct He as [-> | ->]; reflexivity). rewrite A.
    pose proof (span_complete d "" D I) as S. rewrite app_nil in S. destruct (digits_cons d D) as (b & s & Q & B).
    destruct Hg as [->|[->| ->]]; cbn [append]; [|rewrite S, Q; eexists; reflexivity|rewrite S, Q; eexists; reflexivity].
    assert (M : (match d with String "-" r' => (true, r') | String "+" r' => (false, r') | _ => (false, d) end) = (false, d)).
    { rewrite Q. destruct b as [[] [] [] [] [] [] [] []]; first [reflexivity|discriminate B]. }
    rewrite M, S, Q. eexists. reflexivity.
Qed.
Lemma exponent_head s : exponent s -> no_digit s /\ (forall r, s <> String "." r).
Proof. intros [->|(e & g & d & -> & [-> | ->] & _)]; (split; [reflexivity || exact I|discriminate]). Qed.
Definition rest_ok (s : string) : bool :=
  match span_digits s with
  | ("", _) => false
  | (String "0" (String _ _), _) => false
  | (_, String "." r) =>
      match span_digits r with
      | ("", _) => false
      | (_, r') => match parse_exponent r' with Some _ => true | None => false end
      end
  | (_, r) => match parse_exponent r with Some _ => true | None => false end
  end.
Lemma exponent_bool s : match parse_exponent s with Some _ => true | None => false end = true <-> exponent s.
Proof. rewrite <- exponent_spec. destruct (parse_exponent s) as [x|]; split; intros H; try discriminate; [exists x; reflexivity|reflexivity|destruct H; discriminate]. Qed.
Lemma tail_spec r : match r with String "." q => match span_digits q with ("", _) => false | (_, r') => match parse_exponent r' with Some _ => true | None => false end end
    | _ => match parse_exponent r with Some _ => true | None => false end end = true <-> exists f e, r = f ++ e /\ fraction f /\ exponent e.
Proof.
  assert (P : match parse_exponent r with Some _ => true | None => false end = true -> exists f e, r = f ++ e /\ fraction f /\ exponent e).
  { intros H. exists "", r. split; [reflexivity|]. split; [left; reflexivity|apply exponent_bool, H]. }
  split.
  - intros H. destruct r as [|a q]; [exact (P H)|]. destruct (Ascii.eqb_spec a ".") as [->|N].
    + destruct (span_digits q) as [d r'] eqn:S. apply span_sound in S as (-> & D & _). destruct d as [|b d]; [discriminate|]. apply exponent_bool in H.
      exists (String "." (String b d)), r'. split; [reflexivity|]. split; [|exact H]. right. exists (String b d). split; [reflexivity|]. destruct D as [D|D]; [discriminate|exact D].
    + destruct a as [[] [] [] [] [] [] [] []]; first [exfalso; apply N; reflexivity|exact (P H)].
  - intros (f & e & -> & F & E). destruct F as [->|(d & -> & D)].
    + cbn [append]. pose proof (proj2 (exponent_bool e) E) as B. destruct E as [->|(x & g & d & -> & [-> | ->] & _)]; [reflexivity|exact B|exact B].
    + cbn [append]. rewrite (span_complete d e D (proj1 (exponent_head e E))). destruct (digits_cons d D) as (b & s & Q & _). rewrite Q. apply exponent_bool, E.
Qed.
Lemma rest_spec s : rest_ok s = true <-> exists w f e, s = w ++ f ++ e /\ whole w /\ fraction f /\ exponent e.
Proof.
  unfold rest_ok. split.
  - destruct (span_digits s) as [d r] eqn:S. apply span_sound in S as (-> & D & _). destruct d as [|a d]; [discriminate|]. destruct D as [D|D]; [discriminate|].
    intros H. assert (W : whole (String a d) /\ match r with String "." q => match span_digits q with ("", _) => false | (_, r') => match parse_exponent r' with Some _ => true | None => false end end
    | _ => match parse_exponent r with Some _ => true | None => false end end = true).
    { destruct (Ascii.eqb_spec a "0") as [->|N].
      - destruct d as [|b d]; [|discriminate H]. split; [left; reflexivity|exact H].
      - split.
        + right. exists a, d. inversion D; subst; repeat split; trivial; auto.
        + destruct a as [[] [] [] [] [] [] [] []]; first [exfalso; apply N; reflexivity|exact H]. }
    destruct W as (W & T). apply tail_spec in T as (f & e & -> & F & E). exists (String a d), f, e. auto.
  - intros (w & f & e & -> & W & F & E).
    assert (D : JsonGrammar.digits w) by (destruct W as [->|(a & r & -> & A & _ & [->|R])]; constructor; trivial).
    assert (N : no_digit (f ++ e)) by (destruct F as [->|(d & -> & _)]; [apply exponent_head, E|reflexivity]).
    rewrite (span_complete w _ D N). pose proof (proj2 (tail_spec (f ++ e)) (ex_intro _ f (ex_intro _ e (conj eq_refl (conj F E))))) as T.
    destruct W as [->|(a & r & -> & A & Z & _)]; [exact T|].
    destruct a as [[] [] [] [] [] [] [] []]; first [exfalso; apply Z; reflexivity|exact T].
Qed.
Lemma number_spec s : json_number s = true <-> number_token s.
Proof.
  assert (J : json_number s = rest_ok (match s with String "-" r => r | _ => s end)) by reflexivity. rewrite J. clear J. split.
  - intros H. destruct s as [|a r]; [discriminate H|]. destruct (Ascii.eqb_spec a "-") as [->|N].
    + apply rest_spec in H as (w & f & e & -> & W & F & E). apply (nt "-"); trivial. right; reflexivity.
    + assert (G : rest_ok (String a r) = true) by (destruct a as [[] [] [] [] [] [] [] []]; first [exfalso; apply N; reflexivity|exact H]).
      apply rest_spec in G as (w & f & e & Q & W & F & E). rewrite Q. apply (nt ""); trivial. left; reflexivity.
  - intros H. destruct H as [m w f e M W F E]. assert (R : rest_ok (w ++ f ++ e) = true) by (apply rest_spec; exists w, f, e; auto).
    destruct M as [->| ->]; [|exact R]. cbn [append]. destruct W as [->|(a & r & -> & A & _)]; [exact R|].
    destruct a as [[] [] [] [] [] [] [] []]; first [exact R|discriminate A].
Qed.
Definition all_num (s : string) : Prop := forall a, In a (list_ascii_of_string s) -> num_char a = true.
Lemma num_app s t : all_num s -> all_num t -> all_num (s ++ t).
Proof. intros A B. induction s as [|a s IH]; [exact B|]. cbn [append]. intros c [<-|I]; [apply A; left; reflexivity|]. apply IH; [|exact I]. intros x X. apply A. right. exact X. Qed.
Lemma digits_num d : JsonGrammar.digits d -> all_num d.
Proof. induction 1 as [a A|a s A _ IH]; intros c C; cbn in C. - destruct C as [<-|[]]. unfold num_char. rewrite A. reflexivity. - destruct C as [<-|C]; [unfold num_char; rewrite A; reflexivity|exact (IH c C)]. Qed.
Lemma cons_num a s : num_char a = true -> all_num s -> all_num (String a s).
Proof. intros A S c [<-|I]; [exact A|exact (S c I)]. Qed.
Lemma nil_num : all_num "".
Proof. intros c []. Qed.
Lemma number_num s : number_token s -> all_num s.
Proof.
  intros H. destruct H as [m w f e M W F E]. apply num_app; [destruct M as [->| ->]; [apply nil_num|apply cons_num; [reflexivity|apply nil_num]]|]. apply num_app; [|apply num_app].
  - apply digits_num. destruct W as [->|(a & r & -> & A & _ & [->|R])]; constructor; trivial.
  - destruct F as [->|(d & -> & D)]; [apply nil_num|]. apply cons_num; [reflexivity|apply digits_num, D].
  - destruct E as [->|(x & g & d & -> & X & G & D)]; [apply nil_num|]. apply cons_num; [destruct X as [-> | ->]; reflexivity|].
    apply num_app; [|apply digits_num, D]. destruct G as [->|[->| ->]]; [apply nil_num| |]; (apply cons_num; [reflexivity|apply nil_num]).
Qed.
Definition no_num (s : string) : Prop := match s with String a _ => num_char a = false | "" => True end.
Lemma span_num_complete n r : all_num n -> no_num r -> span_num (n ++ r) = (n, r).
Proof.
  intros A N. induction n as [|a n IH].
  - destruct r as [|b r]; [reflexivity|]. cbn [append span_num]. cbn in N. rewrite N. reflexivity.
  - cbn [append span_num]. rewrite (A a (or_introl eq_refl)), IH; [reflexivity|]. intros c C. apply A. right. exact C.
Qed.
Lemma span_num_sound s : forall n r, span_num s = (n, r) -> s = n ++ r.
Proof. induction s as [|a s IH]; intros n r E; cbn [span_num] in E; [injection E as <- <-; reflexivity|]. destruct (num_char a); [|injection E as <- <-; reflexivity]. destruct (span_num s) as [d q]. injection E as <- <-. cbn [append]. rewrite (IH _ _ eq_refl). reflexivity. Qed.

(** ** What is parsed is in the grammar *)
Definition value_sound f := forall s j r, parse_value f s = Some (j, r) -> exists w v, s = w ++ v ++ r /\ white w /\ value v j.
Definition members_sound f := forall s ms r, parse_members f s = Some (ms, r) -> exists m, s = m ++ "}" ++ r /\ JsonGrammar.members m ms.
Definition elements_sound f := forall s l r, parse_elements f s = Some (l, r) -> exists m, s = m ++ "]" ++ r /\ JsonGrammar.elements m l.
Lemma literal_sound p j0 s j r : literal p j0 s = Some (j, r) -> s = p ++ r /\ j = j0.
Proof.
  unfold literal. destruct (strip_prefix p s) as [q|] eqn:E; [|discriminate]. intros [= <- <-]. split; [|reflexivity].
  revert s q E. induction p as [|a p IH]; intros s q E; cbn in E; [injection E as ->; reflexivity|]. destruct s as [|b s]; [discriminate|].
  destruct (Ascii.eqb_spec a b) as [->|]; [|discriminate]. cbn [append]. rewrite (IH _ _ E). reflexivity.
Qed.
Lemma all_sound f : value_sound f /\ members_sound f /\ elements_sound f.
Proof.
  induction f as [|f (V & M & L)]; [split; [|split]; intros ? ? ? E; discriminate|]. split; [|split].
  - intros s j r E. cbn [parse_value] in E. destruct (skip_split s) as (w & W & Q). exists w. destruct (skip_space s) as [|a s'] eqn:K; [discriminate|].
    enough (G : exists v, String a s' = v ++ r /\ value v j) by (destruct G as (v & G & H); exists v; rewrite Q, G; auto). clear Q W w K.
    destruct (Ascii.eqb_spec a "{") as [->|_].
    { assert (D : match parse_members f s' with Some (ms, r) => Some (JObj ms, r) | None => None end = Some (j, r) -> exists v, String "{" s' = v ++ r /\ value v j).
      { destruct (parse_members f s') as [[ms q]|] eqn:P; [|discriminate]. intros [= <- <-]. apply M in P as (m & -> & H). exists ("{" ++ m ++ "}"). split; [cbn [append]; rewrite app_app; reflexivity|constructor; exact H]. }
      destruct (skip_split s') as (w & W & Q). destruct (skip_space s') as [|c s2] eqn:K; [exact (D E)|].
      destruct (Ascii.eqb_spec c "}") as [->|N].
      - injection E as <- <-. exists ("{" ++ w ++ "}"). split; [rewrite Q; cbn [append]; rewrite app_app; reflexivity|constructor; exact W].
      - apply D. destruct c as [[] [] [] [] [] [] [] []]; first [exact E|exfalso; apply N; reflexivity]. }
    destruct (Ascii.eqb_spec a "[") as [->|_].
    { assert (D : match parse_elements f s' with Some (l, r) => Some (JArr l, r) | None => None end = Some (j, r) -> exists v, String "[" s' = v ++ r /\ value v j).
      { destruct (parse_elements f s') as [[ms q]|] eqn:P; [|discriminate]. intros [= <- <-]. apply L in P as (m & -> & H). exists ("[" ++ m ++ "]"). split; [cbn [append]; rewrite app_app; reflexivity|constructor; exact H]. }
      destruct (skip_split s') as (w & W & Q). destruct (skip_space s') as [|c s2] eqn:K; [exact (D E)|].
      destruct (Ascii.eqb_spec c "]") as [->|N].
      - injection E as <- <-. exists ("[" ++ w ++ "]"). split; [rewrite Q; cbn [append]; rewrite app_app; reflexivity|constructor; exact W].
      - apply D. destruct c as [[] [] [] [] [] [] [] []]; first [exact E|exfalso; apply N; reflexivity]. }
    destruct (Ascii.eqb_spec a dquote) as [->|_].
    { destruct (parse_string s') as [[t q]|] eqn:P; [|discriminate]. injection E as <- <-. apply string_sound in P as (v & T & ->). exists v. split; [reflexivity|constructor; exact T]. }
    destruct (Ascii.eqb a "n"); [apply literal_sound in E as (-> & ->); exists "null"; split; [reflexivity|constructor]|].
    destruct (Ascii.eqb a "t"); [apply literal_sound in E as (-> & ->); exists "true"; split; [reflexivity|constructor]|].
    destruct (Ascii.eqb a "f"); [apply literal_sound in E as (-> & ->); exists "false"; split; [reflexivity|constructor]|].
    destruct (span_num (String a s')) as [n q] eqn:P. destruct (json_number n) eqn:N; [|discriminate]. injection E as <- <-. apply span_num_sound in P. apply number_spec in N.
    exists n. split; [exact P|constructor; exact N].
  - intros s ms r E. cbn [parse_members] in E. destruct (skip_split s) as (w & W & Q). destruct (skip_space s) as [|a s1]; [discriminate|]. subst s.
    destruct (Ascii.eqb_spec a dquote) as [->|]; [|discriminate]. cbn [negb] in E. destruct (parse_string s1) as [[k s2]|] eqn:P; [|discriminate]. apply string_sound in P as (q & T & ->).
    destruct (skip_split s2) as (w2 & W2 & Q2). destruct (skip_space s2) as [|c s3]; [discriminate|]. subst s2.
    assert (C : c = ":"%char) by (destruct c as [[] [] [] [] [] [] [] []]; try discriminate E; reflexivity). subst c.
    destruct (parse_value f s3) as [[v s4]|] eqn:F; [|discriminate]. apply V in F as (w3 & x & -> & W3 & X).
    destruct (skip_split s4) as (w4 & W4 & Q4). destruct (skip_space s4) as [|c s5]; [discriminate|]. subst s4.
    assert (Dc : document (w3 ++ x ++ w4) v) by (constructor; assumption).
    destruct (Ascii.eqb_spec c "}") as [->|N1].
    { injection E as <- <-. exists (w ++ q ++ w2 ++ ":" ++ (w3 ++ x ++ w4)). split; [rewrite !app_app; cbn [append]; rewrite ?app_app; reflexivity|]. constructor; assumption. }
    destruct (Ascii.eqb_spec c ",") as [->|N2].
    { destruct (parse_members f s5) as [[ms' r']|] eqn:R; [|discriminate]. injection E as <- <-. apply M in R as (m & -> & Hm).
      exists (w ++ q ++ w2 ++ ":" ++ (w3 ++ x ++ w4) ++ "," ++ m). split; [rewrite !app_app; cbn [append]; rewrite ?app_app; cbn [append]; rewrite ?app_app; reflexivity|]. constructor; assumption. }
    exfalso. destruct c as [[] [] [] [] [] [] [] []]; try discriminate E; first [apply N2; reflexivity|apply N1; reflexivity].
  - intros s l r E. cbn [parse_elements] in E. destruct (parse_value f s) as [[v s4]|] eqn:F; [|discriminate]. apply V in F as (w3 & x & -> & W3 & X).
    destruct (skip_split s4) as (w4 & W4 & Q4). destruct (skip_space s4) as [|c s5]; [discriminate|]. subst s4.
    assert (Dc : document (w3 ++ x ++ w4) v) by (constructor; assumption).
    destruct (Ascii.eqb_spec c "]") as [->|N1].
    { injection E as <- <-. exists (w3 ++ x ++ w4). split; [rewrite !app_app; reflexivity|]. constructor; assumption. }
    destruct (Ascii.eqb_spec c ",") as [->|N2].
    { destruct (parse_elements f s5) as [[ms' r']|] eqn:R; [|discriminate]. injection E as <- <-. apply L in R as (m & -> & Hm).
      exists ((w3 ++ x ++ w4) ++ "," ++ m). split; [rewrite !app_app; cbn [append]; rewrite ?app_app; reflexivity|]. constructor; assumption. }
    exfalso. destruct c as [[] [] [] [] [] [] [] []]; try discriminate E; first [apply N2; reflexivity|apply N1; reflexivity].
Qed.
Theorem parse_sound s j : parse s = Some j -> document s j.
Proof.
  unfold parse. destruct (parse_value (enough s) s) as [[j' r]|] eqn:P; [|discriminate]. destruct (String.eqb_spec (skip_space r) "") as [E|]; [|discriminate]. intros [= <-].
  apply (proj1 (all_sound _)) in P as (w & v & -> & W & V). constructor; [exact W|exact V|apply white_skip, E].
Qed.

(** ** What is in the grammar is parsed *)
Scheme value_mut := Minimality for value Sort Prop
  with document_mut := Minimality for document Sort Prop
  with elements_mut := Minimality for JsonGrammar.elements Sort Prop
  with members_mut := Minimality for JsonGrammar.members Sort Prop.
Combined Scheme grammar_mut from value_mut, document_mut, elements_mut, members_mut.
Lemma value_head s j : value s j -> exists a s', s = String a s' /\ is_space a = false /\ a <> "]"%char /\ a <> "}"%char.
Proof.
  intros H. destruct H as [| | |n N|t s T|w W|s l E|w W|s ms E]; try (do 2 eexists; split; [reflexivity|repeat split; discriminate]).
  - destruct N as [m w f e M W F E]. destruct M as [->| ->]; [|do 2 eexists; split; [reflexivity|repeat split; discriminate]]. cbn [append].
    destruct W as [->|(a & r & -> & A & _)]; [do 2 eexists; split; [reflexivity|repeat split; discriminate]|]. exists a. eexists. split; [reflexivity|].
    destruct a as [[] [] [] [] [] [] [] []]; try discriminate A; repeat split; discriminate.
  - destruct T. do 2 eexists. split; [reflexivity|repeat split; discriminate].
Qed.
Lemma document_head s j r : document s j -> exists a s', skip_space (s ++ r) = String a s' /\ a <> "]"%char /\ a <> "}"%char.
Proof.
  intros H. destruct H as [v s w j V X W]. destruct (value_head _ _ X) as (a & s' & -> & A & N1 & N2). exists a, (s' ++ w ++ r). split; [|auto].
  rewrite app_app, (skip_white v _ V). cbn [append]. rewrite app_app. apply skip_stop, A.
Qed.
Lemma elements_head s l r : JsonGrammar.elements s l -> exists a s', skip_space (s ++ r) = String a s' /\ a <> "]"%char.
Proof.
  intros H. destruct H as [s j D|s j t l D _].
  - destruct (document_head s j r D) as (a & s' & E & N & _). exists a, s'. auto.
  - rewrite app_app. destruct (document_head s j (("," ++ t) ++ r) D) as (a & s' & E & N & _). exists a, s'. auto.
Qed.
Lemma token_head v q k r : white v -> string_token q k -> exists s', skip_space (v ++ q ++ r) = String dquote s'.
Proof. intros V T. destruct T as [t s U C]. rewrite (skip_white v _ V). eexists. apply skip_stop. reflexivity. Qed.
Lemma members_head s l r : JsonGrammar.members s l -> exists s', skip_space (s ++ r) = String dquote s'.
Proof. intros H. destruct H as [v q k w s j V T W D|v q k w s j t ms V T W D _]; rewrite !app_app; exact (token_head v q k _ V T). Qed.
Lemma raise_value f s j r g : parse_value f s = Some (j, r) -> 2 * len s + 1 <= g -> parse_value g s = Some (j, r).
Proof. intros P. exact (proj2 (proj1 (all_ok f) s j r P) g). Qed.
Lemma raise_members f s j r g : parse_members f s = Some (j, r) -> 2 * len s + 2 <= g -> parse_members g s = Some (j, r).
Proof. intros P. exact (proj2 (proj1 (proj2 (all_ok f)) s j r P) g). Qed.
Lemma raise_elements f s j r g : parse_elements f s = Some (j, r) -> 2 * len s + 2 <= g -> parse_elements g s = Some (j, r).
Proof. intros P. exact (proj2 (proj2 (proj2 (all_ok f)) s j r P) g). Qed.
Lemma no_num_white w r : white w -> no_num r -> no_num (w ++ r).
Proof. intros W N. destruct W as [|a w A _]; [exact N|]. cbn. destruct A as [<-|[<-|[<-|[<-|[]]]]]; reflexivity. Qed.
Lemma digit_other a : is_digit a = true \/ a = "-"%char -> Ascii.eqb a "{" = false /\ Ascii.eqb a "[" = false /\ Ascii.eqb a dquote = false /\ Ascii.eqb a "n" = false /\ Ascii.eqb a "t" = false /\ Ascii.eqb a "f" = false.
Proof. intros [A| ->]; [|repeat split]. destruct a as [[] [] [] [] [] [] [] []]; try discriminate A; repeat split. Qed.
Lemma number_head n : number_token n -> exists a s, n = String a s /\ is_space a = false /\ (is_digit a = true \/ a = "-"%char).
Proof.
  intros N. destruct N as [m w f e M W F E]. destruct M as [->| ->]; [|do 2 eexists; split; [reflexivity|split; [reflexivity|right; reflexivity]]]. cbn [append].
  destruct W as [->|(a & r & -> & A & _)]; [do 2 eexists; split; [reflexivity|split; [reflexivity|left; reflexivity]]|]. exists a. eexists. split; [reflexivity|].
  split; [destruct a as [[] [] [] [] [] [] [] []]; first [reflexivity|discriminate A]|left; exact A].
Qed.
Lemma all_complete :
  (forall s j, value s j -> forall r, no_num r -> exists f, parse_value f (s ++ r) = Some (j, r)) /\
  (forall s j, document s j -> forall r, no_num r -> exists f r', parse_value f (s ++ r) = Some (j, r') /\ skip_space r' = skip_space r) /\
  (forall s l, JsonGrammar.elements s l -> forall r, exists f, parse_elements f (s ++ "]" ++ r) = Some (l, r)) /\
  (forall s ms, JsonGrammar.members s ms -> forall r, exists f, parse_members f (s ++ "}" ++ r) = Some (ms, r)).
Proof.
  apply grammar_mut.
  - intros r _. exists 1. reflexivity.
  - intros r _. exists 1. reflexivity.
  - intros r _. exists 1. reflexivity.
  - intros n N r R. exists 1. pose proof (span_num_complete n r (number_num n N) R) as S. pose proof (proj2 (number_spec n) N) as J.
    destruct (number_head n N) as (a & s & -> & Sp & A). destruct (digit_other a A) as (A1 & A2 & A3 & A4 & A5 & A6).
    cbn [append] in S |- *. cbn [parse_value]. rewrite (skip_stop _ _ Sp), A1, A2, A3, A4, A5, A6, S, J. reflexivity.
  - intros t s T r _. exists 1. destruct (string_complete t s r T) as (q & Q & P). rewrite Q. cbn [parse_value]. rewrite skip_stop by reflexivity.
    change (Ascii.eqb dquote "{") with false. change (Ascii.eqb dquote "[") with false. rewrite Ascii.eqb_refl, P. reflexivity.
  - intros w W r _. exists 1. cbn [append]. rewrite app_app. cbn [parse_value]. rewrite skip_stop by reflexivity. change (Ascii.eqb "[" "{") with false. change (Ascii.eqb "[" "[") with true.
    cbn iota. rewrite (skip_white w _ W). reflexivity.
  - intros s l E IH r _. destruct (IH r) as (f & P). exists (S f). cbn [append]. rewrite app_app. cbn [parse_value]. rewrite skip_stop by reflexivity. change (Ascii.eqb "[" "{") with false. change (Ascii.eqb "[" "[") with true.
    cbn iota. rewrite P. destruct (elements_head s l ("]" ++ r) E) as (a & s' & K & N). rewrite K. destruct a as [[] [] [] [] [] [] [] []]; first [reflexivity|exfalso; apply N; reflexivity].
  - intros w W r _. exists 1. cbn [append]. rewrite app_app. cbn [parse_value]. rewrite skip_stop by reflexivity. change (Ascii.eqb "{" "{") with true.
    cbn iota. rewrite (skip_white w _ W). reflexivity.
  - intros s l E IH r _. destruct (IH r) as (f & P). exists (S f). cbn [append]. rewrite app_app. cbn [parse_value]. rewrite skip_stop by reflexivity. change (Ascii.eqb "{" "{") with true.
    cbn iota. rewrite P. destruct (members_head s l ("}" ++ r) E) as (s' & K). rewrite K. reflexivity.
  - intros v s w j V X IH W r R. destruct (IH (w ++ r) (no_num_white w r W R)) as (f & P). exists f, (w ++ r). split; [|apply skip_white, W].
    rewrite !app_app. destruct f as [|f]; [discriminate P|]. cbn [parse_value] in P |- *. rewrite (skip_white v _ V). exact P.
  - intros s j D IH r. destruct (IH ("]" ++ r) eq_refl) as (f & r' & P & K). exists (S f). cbn [parse_elements]. rewrite P, K. reflexivity.
  - intros s j t l D IH E IHl r. rewrite !app_app. destruct (IH ("," ++ t ++ "]" ++ r) eq_refl) as (f & r' & P & K). destruct (IHl r) as (g & Q).
    set (whole := s ++ "," ++ t ++ "]" ++ r) in *. set (more := t ++ "]" ++ r) in *.
    exists (S (2 * len whole + 2 * len more + 2)). cbn [parse_elements]. rewrite (raise_value _ _ _ _ _ P) by lia. rewrite K. cbn [append]. rewrite skip_stop by reflexivity.
    rewrite (raise_elements _ _ _ _ _ Q) by lia. reflexivity.
  - intros v q k w s j V T W D IH r. rewrite !app_app. destruct (IH ("}" ++ r) eq_refl) as (f & r' & P & K). exists (S f). cbn [parse_members].
    rewrite (skip_white v _ V). destruct (string_complete q k (w ++ ":" ++ s ++ "}" ++ r) T) as (x & X & Y). rewrite X, skip_stop by reflexivity. rewrite Ascii.eqb_refl. cbn [negb].
    rewrite Y, (skip_white w _ W). cbn [append]. rewrite skip_stop by reflexivity. cbn [append] in P. rewrite P, K. reflexivity.
  - intros v q k w s j t ms V T W D IH E IHm r. rewrite !app_app. destruct (IH ("," ++ t ++ "}" ++ r) eq_refl) as (f & r' & P & K). destruct (IHm r) as (g & Q).
    set (whole := s ++ "," ++ t ++ "}" ++ r) in *. set (more := t ++ "}" ++ r) in *.
    exists (S (2 * len whole + 2 * len more + 2)). cbn [parse_members].
    rewrite (skip_white v _ V). destruct (string_complete q k (w ++ ":" ++ whole) T) as (x & X & Y). rewrite X, skip_stop by reflexivity. rewrite Ascii.eqb_refl. cbn [negb].
    rewrite Y, (skip_white w _ W). cbn [append]. rewrite skip_stop by reflexivity. rewrite (raise_value _ _ _ _ _ P) by lia. rewrite K. cbn [append]. rewrite skip_stop by reflexivity.
    rewrite (raise_members _ _ _ _ _ Q) by lia. reflexivity.
Qed.
Theorem parse_complete_grammar s j : document s j -> parse s = Some j.
Proof.
  intros D. destruct (proj1 (proj2 all_complete) s j D "" I) as (f & r & P & K). rewrite app_nil in P. eapply parse_complete; [exact P|exact K].
Qed.

(** ** White space around a document *)
Lemma white_app v w : white v -> white w -> white (v ++ w).
Proof. intros V W. induction V as [|a s A _ IH]; [exact W|]. cbn [append]. constructor; assumption. Qed.
