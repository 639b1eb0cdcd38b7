(** Numbers are read back as written. *)
From Verif Require Import Base Types LinkModel LinkSpec LinkProofs Numbers.
From Coq Require Import Lia.
Local Open Scope string_scope.

Lemma append_nil_r s : s ++ "" = s.
Proof. induction s; cbn; congruence. Qed.
Lemma append_assoc a b c : (a ++ b) ++ c = a ++ (b ++ c).
Proof. induction a; cbn; congruence. Qed.
Lemma length_append a b : String.length (a ++ b) = String.length a + String.length b.
Proof. induction a; cbn; auto. Qed.

(** ** Digits *)
Definition digits (s : string) : bool := str_all is_digit s.

Lemma digits_all s : digits s = true <-> all_of decimal_digits s.
Proof. apply str_all_iff. intros a. unfold is_digit. apply digit_range. Qed.
Lemma digits_app a b : digits (a ++ b) = (digits a && digits b)%bool.
Proof. induction a; cbn; auto. unfold digits in *. cbn. rewrite IHa. apply andb_assoc. Qed.
Lemma digits_zeros n : digits (zeros n) = true.
Proof. induction n; auto. Qed.

Definition no_digit (s : string) : Prop := match s with String a _ => is_digit a = false | "" => True end.
Lemma span_digits_app d r : digits d = true -> no_digit r -> span_digits (d ++ r) = (d, r).
Proof.
  unfold digits. induction d as [|a d IH]; cbn.
  - intros _ H. destruct r as [|b r]; [reflexivity|]. cbn in H. cbn. rewrite H. reflexivity.
  - intros H R. apply andb_prop in H as (H1 & H2). rewrite H1. rewrite (IH H2 R). reflexivity.
Qed.
Lemma span_digits_all d : digits d = true -> span_digits d = (d, "").
Proof. intros H. rewrite <- (append_nil_r d) at 1. apply span_digits_app; [exact H|exact I]. Qed.

Lemma decimal_value_app a b :
  decimal_value (a ++ b) = (decimal_value a * 10 ^ Z.of_nat (String.length b) + decimal_value b)%Z.
Proof.
  induction a as [|x a IH]; cbn [append decimal_value]; [reflexivity|]. rewrite IH, length_append, Nat2Z.inj_add, Z.pow_add_r by lia. ring.
Qed.
Lemma decimal_value_zeros n : decimal_value (zeros n) = 0%Z.
Proof. induction n; [reflexivity|]. cbn [zeros decimal_value]. rewrite IHn. reflexivity. Qed.
Lemma length_zeros n : String.length (zeros n) = n.
Proof. induction n; cbn; auto. Qed.
Lemma digits_N_value s : digits s = true -> digits_N s = Z.to_N (decimal_value s).
Proof.
  intros H. unfold digits_N. rewrite (digits_val_ok s 0) by (apply digits_all, H). f_equal. 
Qed.

Lemma format_int_zero : format_int 0 = "0". Proof. reflexivity. Qed.
Lemma format_int_digits z : (0 <= z)%Z -> digits (format_int z) = true /\ decimal_value (format_int z) = z /\ format_int z <> "".
Proof.
  intros H. destruct (Z.eq_dec z 0) as [->|N]; [repeat split; discriminate|].
  destruct (format_int_pos z ltac:(lia)) as (P & V). split; [apply digits_all, positive_decimal_digits, P|]. split; [exact V|].
  destruct P as (a & r & -> & _). discriminate.
Qed.
Lemma format_int_neg z : (z < 0)%Z -> format_int z = String "-" (format_int (- z)).
Proof.
  intros H. unfold format_int. replace (z <? 0)%Z with true by (symmetry; apply Z.ltb_lt; lia).
  replace (- z <? 0)%Z with false by (symmetry; apply Z.ltb_ge; lia). reflexivity.
Qed.

(** ** Integers *)
Lemma digits_head a s : digits (String a s) = true -> is_digit a = true.
Proof. unfold digits; cbn. intros H. apply andb_prop in H. tauto. Qed.

Lemma atoi_digits v : digits v = true -> v <> "" ->
  atoi v = if is_int (decimal_value v) then Ok (decimal_value v) else Err ErrRange.
Proof.
  intros D N. destruct v as [|a r]; [contradiction|].
  assert (S : (match String a r with String "-" r => (true, r) | String "+" r => (false, r) | _ => (false, String a r) end) = (false, String a r)).
  { apply digits_head in D. destruct a as [[] [] [] [] [] [] [] []]; try discriminate D; reflexivity. }
  unfold atoi. rewrite S. rewrite digits_val_ok by (apply digits_all, D). rewrite Z.mul_0_l, Z.add_0_l. reflexivity.
Qed.

Lemma atoi_format z : is_int z = true -> atoi (format_int z) = Ok z.
Proof.
  intros H. destruct (Z.ltb_spec z 0) as [L|L].
  - rewrite (format_int_neg z L). destruct (format_int_digits (- z) ltac:(lia)) as (D & V & NE).
    unfold atoi. destruct (format_int (- z)) as [|a r] eqn:E; [contradiction|].
    rewrite digits_val_ok by (apply digits_all, D). rewrite V. replace (- (0 * _ + - z))%Z with z by ring. rewrite H. reflexivity.
  - destruct (format_int_digits z L) as (D & V & NE). rewrite atoi_digits by assumption. rewrite V, H. reflexivity.
Qed.

(** ** Decimals *)
Definition sign_text (neg : bool) : string := if neg then "-" else "".

Lemma unsign neg s : (match s with String a _ => is_digit a = true | "" => False end) ->
  (match sign_text neg ++ s with String "-" r => (true, r) | _ => (false, sign_text neg ++ s) end) = (neg, s).
Proof.
  destruct neg; cbn; [reflexivity|]. destruct s as [|a s]; [tauto|].
  intros D. destruct a as [[] [] [] [] [] [] [] []]; try discriminate D; reflexivity.
Qed.

Definition etext_ok (s : string) (x : Z) : Prop := parse_exponent s = Some x.
Lemma etext_no_digit s x : etext_ok s x -> no_digit s.
Proof.
  unfold etext_ok. destruct s as [|a s]; cbn; [tauto|]. intros H.
  destruct a as [[] [] [] [] [] [] [] []]; try reflexivity; discriminate H.
Qed.
Lemma etext_not_dot s x : etext_ok s x -> forall r, s <> String "." r.
Proof. intros H r ->. discriminate H. Qed.

Lemma parse_plain neg ip et x : digits ip = true -> ip <> "" -> etext_ok et x ->
  parse_decimal (sign_text neg ++ ip ++ et) = Some (neg, digits_N ip, x).
Proof.
  intros D N E. unfold parse_decimal. rewrite unsign.
  - rewrite span_digits_app by eauto using etext_no_digit. destruct ip as [|a ip]; [contradiction|].
    pose proof (etext_not_dot et x E) as ND. unfold etext_ok in E.
    destruct et as [|b et]; [cbn in E; injection E as <-; reflexivity|].
    destruct b as [[] [] [] [] [] [] [] []]; try (rewrite E; reflexivity). exfalso. eapply ND. reflexivity.
  - destruct ip as [|a ip]; [contradiction|]. cbn. eapply digits_head, D.
Qed.
Lemma parse_frac neg ip fp et x : digits ip = true -> ip <> "" -> digits fp = true -> fp <> "" -> etext_ok et x ->
  parse_decimal (sign_text neg ++ ip ++ "." ++ fp ++ et) = Some (neg, digits_N (ip ++ fp), (x - Z.of_nat (String.length fp))%Z).
Proof.
  intros D N D2 N2 E. unfold parse_decimal. rewrite unsign.
  - rewrite span_digits_app by (trivial; reflexivity). destruct ip as [|a ip]; [contradiction|]. cbn [append].
    rewrite span_digits_app by eauto using etext_no_digit. destruct fp as [|b fp]; [contradiction|].
    unfold etext_ok in E. rewrite E. reflexivity.
  - destruct ip as [|a ip]; [contradiction|]. cbn. eapply digits_head, D.
Qed.

Lemma etext_empty : etext_ok "" 0. Proof. reflexivity. Qed.
Lemma etext_exponent pad x : etext_ok ("e" ++ exponent_text pad x) x.
Proof.
  unfold etext_ok, exponent_text. destruct (format_int_digits (Z.abs x) ltac:(lia)) as (D & V & N).
  set (z := if (pad && (Z.abs x <? 10)%Z)%bool then "0" else "").
  assert (Dz : digits (z ++ format_int (Z.abs x)) = true).
  { rewrite digits_app, D. unfold z. destruct (_ && _)%bool; reflexivity. }
  assert (Vz : digits_N (z ++ format_int (Z.abs x)) = Z.to_N (Z.abs x)).
  { rewrite digits_N_value by exact Dz. rewrite decimal_value_app, V. unfold z. destruct (_ && _)%bool; cbn; reflexivity. }
  assert (Nz : z ++ format_int (Z.abs x) <> "").
  { destruct z; [exact N|discriminate]. }
  cbn [append parse_exponent]. cbv beta iota. change (Ascii.eqb "e" "e" || Ascii.eqb "e" "E")%bool with true. cbv iota.
  destruct (Z.ltb_spec x 0) as [L|L]; cbn [append]; rewrite span_digits_all by exact Dz;
    (destruct (z ++ format_int (Z.abs x)) as [|a r]; [contradiction|]); rewrite Vz; f_equal; lia.
Qed.

(** ** Normal forms *)
Lemma strip_zeros_done fuel m e : (m mod 10 <> 0)%N -> strip_zeros fuel m e = (m, e).
Proof. intros H. destruct fuel; cbn; [reflexivity|]. destruct (N.eqb_spec (m mod 10) 0); [contradiction|reflexivity]. Qed.
Lemma strip_zeros_pow n : forall fuel m e, (m mod 10 <> 0)%N -> n <= fuel ->
  strip_zeros fuel (m * 10 ^ N.of_nat n) e = (m, e + Z.of_nat n)%Z.
Proof.
  induction n as [|n IH]; intros fuel m e H F.
  - cbn. rewrite N.mul_1_r, Z.add_0_r. apply strip_zeros_done, H.
  - destruct fuel as [|fuel]; [lia|]. cbn [strip_zeros].
    replace (m * 10 ^ N.of_nat (S n))%N with ((m * 10 ^ N.of_nat n) * 10)%N by (rewrite Nat2N.inj_succ, N.pow_succ_r'; ring).
    rewrite N.mod_mul by discriminate. cbn [N.eqb]. rewrite N.div_mul by discriminate. rewrite IH by (trivial; lia). f_equal. lia.
Qed.
Lemma size_pow m n : (m <> 0)%N -> n <= N.size_nat (m * 10 ^ N.of_nat n).
Proof.
  intros H. assert (L : (N.of_nat n <= N.log2 (m * 10 ^ N.of_nat n))%N).
  { apply N.log2_le_pow2; [apply N.neq_0_lt_0; apply N.neq_mul_0; split; [exact H|apply N.pow_nonzero; discriminate]|].
    transitivity (10 ^ N.of_nat n)%N; [apply N.pow_le_mono_l; lia|]. nia. }
  assert (S : N.size (m * 10 ^ N.of_nat n) = N.succ (N.log2 (m * 10 ^ N.of_nat n))).
  { apply N.size_log2. apply N.neq_mul_0; split; [exact H|apply N.pow_nonzero; discriminate]. }
  assert (SN : N.of_nat (N.size_nat (m * 10 ^ N.of_nat n)) = N.size (m * 10 ^ N.of_nat n)).
  { destruct (m * 10 ^ N.of_nat n)%N as [|p]; [reflexivity|]. cbn. clear. induction p; cbn; try rewrite <- Pos.of_nat_succ in *; lia. }
  lia.
Qed.
Lemma normalize_pow m n : (m mod 10 <> 0)%N -> normalize (m * 10 ^ N.of_nat n) 0 = (m, Z.of_nat n).
Proof.
  intros H. assert (M : m <> 0%N) by (intros ->; apply H; reflexivity). unfold normalize.
  destruct (N.eqb_spec (m * 10 ^ N.of_nat n) 0) as [Z|_].
  { apply N.mul_eq_0 in Z as [?|Z]; [contradiction|]. apply N.pow_nonzero in Z; [destruct Z|discriminate]. }
  rewrite strip_zeros_pow by (trivial; apply size_pow, M). f_equal.
Qed.
Lemma normalize_done m e : (m mod 10 <> 0)%N -> normalize m e = (m, e).
Proof.
  intros H. unfold normalize. destruct (N.eqb_spec m 0) as [->|_]; [exfalso; apply H; reflexivity|]. apply strip_zeros_done, H.
Qed.

(** ** Floats *)
Lemma float_digits_ok m : digits (float_digits m) = true /\ decimal_value (float_digits m) = Z.of_N m /\ float_digits m <> "".
Proof. apply format_int_digits. lia. Qed.

Lemma substring_split n s : n <= String.length s ->
  String.substring 0 n s ++ String.substring n (String.length s - n) s = s.
Proof.
  revert n. induction s as [|a s IH]; intros n H; cbn in H.
  - replace n with 0 by lia. reflexivity.
  - destruct n as [|n]; cbn [String.length Nat.sub].
    + cbn. f_equal. clear. induction s; cbn; congruence.
    + cbn. f_equal. apply IH. lia.
Qed.
Lemma substring_length n s : n <= String.length s -> String.length (String.substring 0 n s) = n.
Proof. revert n. induction s as [|a s IH]; intros [|n] H; cbn in *; try lia. rewrite IH; lia. Qed.

Lemma layout_f_parse neg m e : (m mod 10 <> 0)%N ->
  exists m' e', parse_decimal (sign_text neg ++ layout_f m e) = Some (neg, m', e') /\ normalize m' e' = (m, e).
Proof.
  intros H. destruct (float_digits_ok m) as (D & V & N). unfold layout_f.
  destruct (N.eqb_spec m 0) as [->|M]; [exfalso; apply H; reflexivity|].
  destruct (Z.leb_spec (float_point m e) 0) as [P|P].
  - do 2 eexists. split; [|apply normalize_done, H].
    change ("0." ++ zeros (Z.to_nat (- float_point m e)) ++ float_digits m)
      with ("0" ++ "." ++ (zeros (Z.to_nat (- float_point m e)) ++ float_digits m)).
    rewrite <- (append_nil_r (zeros _ ++ _)).
    rewrite (parse_frac neg "0" _ "" 0); try reflexivity; try discriminate.
    + do 2 f_equal; [f_equal|].
      * rewrite digits_N_value by (cbn; fold (digits (zeros (Z.to_nat (- float_point m e)) ++ float_digits m)); rewrite digits_app, digits_zeros, D; reflexivity).
        rewrite !decimal_value_app, decimal_value_zeros, V. cbn. lia.
      * rewrite length_append, length_zeros. unfold float_point in *. lia.
    + rewrite digits_app, digits_zeros, D. reflexivity.
    + destruct (zeros _); [exact N|discriminate].
  - destruct (Z.leb_spec 0 e) as [E|E].
    + do 2 eexists. split.
      * rewrite <- (append_nil_r (float_digits m ++ _)). apply (parse_plain neg _ "" 0).
        -- rewrite digits_app, D, digits_zeros. reflexivity.
        -- destruct (float_digits m); [contradiction|discriminate].
        -- reflexivity.
      * rewrite digits_N_value by (rewrite digits_app, D, digits_zeros; reflexivity).
        rewrite decimal_value_app, decimal_value_zeros, length_zeros, V.
        replace (Z.to_N (Z.of_N m * 10 ^ Z.of_nat (Z.to_nat e) + 0)) with (m * 10 ^ N.of_nat (Z.to_nat e))%N.
        -- rewrite normalize_pow by exact H. f_equal. lia.
        -- rewrite Z.add_0_r, Z2N.inj_mul, N2Z.id by lia. f_equal.
           rewrite Z2N.inj_pow by lia. f_equal. lia.
    + set (n := Z.to_nat (float_point m e)). assert (L : 0 < n < String.length (float_digits m)) by (unfold n, float_point in *; lia).
      do 2 eexists. split; [|apply normalize_done, H].
      assert (S := substring_split n (float_digits m) ltac:(lia)).
      set (ip := String.substring 0 n (float_digits m)) in *. set (fp := String.substring n (String.length (float_digits m) - n) (float_digits m)) in *.
      assert (Li : String.length ip = n) by (apply substring_length; lia).
      assert (Lf : String.length ip + String.length fp = String.length (float_digits m)) by (rewrite <- length_append, S; reflexivity).
      pose proof D as D'. rewrite <- S, digits_app in D'. apply andb_prop in D' as (Di & Df).
      rewrite <- (append_nil_r fp).
      rewrite (parse_frac neg ip fp "" 0); trivial; try reflexivity.
      * rewrite S. do 2 f_equal; [f_equal|].
        -- rewrite digits_N_value by exact D. rewrite V. apply N2Z.id.
        -- unfold n, float_point in *. lia.
      * destruct ip; [cbn in Li; lia|discriminate].
      * destruct fp; [cbn in Lf; lia|discriminate].
Qed.

Lemma layout_e_parse pad neg m e : (m mod 10 <> 0)%N ->
  parse_decimal (sign_text neg ++ layout_e pad m e) = Some (neg, m, e).
Proof.
  intros H. destruct (float_digits_ok m) as (D & V & N). unfold layout_e.
  destruct (float_digits m) as [|a r] eqn:E; [contradiction|].
  destruct r as [|b r].
  - change (String a ("e" ++ exponent_text pad (float_point m e - 1))) with (String a "" ++ ("e" ++ exponent_text pad (float_point m e - 1))).
    rewrite (parse_plain neg _ _ _ D ltac:(discriminate) (etext_exponent pad _)).
    rewrite digits_N_value, V, N2Z.id by exact D. unfold float_point. rewrite E. cbn [String.length]. do 2 f_equal. lia.
  - change (String a ("." ++ String b r ++ "e" ++ exponent_text pad (float_point m e - 1)))
      with (String a "" ++ "." ++ String b r ++ ("e" ++ exponent_text pad (float_point m e - 1))).
    change (String a (String b r)) with (String a "" ++ String b r) in D. pose proof D as D'. rewrite digits_app in D'. apply andb_prop in D' as (Di & Df).
    rewrite (parse_frac neg _ _ _ _ Di ltac:(discriminate) Df ltac:(discriminate) (etext_exponent pad _)).
    cbn [append] in *. rewrite digits_N_value, V, N2Z.id by exact D. unfold float_point. rewrite E. cbn [String.length]. do 2 f_equal. lia.
Qed.

Lemma float_ok_inv b neg m e : float_ok b (FFin neg m e) = true ->
  ((m = 0%N /\ e = 0%Z) \/ (m mod 10 <> 0)%N) /\ overflows b m e = false.
Proof.
  cbn. intros H. apply andb_prop in H as (H & O). apply negb_true_iff in O. split; [|exact O].
  apply orb_prop in H as [H|H].
  - apply andb_prop in H as (H1 & H2). left. split; [apply N.eqb_eq, H1|apply Z.eqb_eq, H2].
  - right. apply negb_true_iff, N.eqb_neq in H. exact H.
Qed.

Lemma parse_json_float b neg m e : float_ok b (FFin neg m e) = true ->
  parse_float b (json_float neg m e) = Some (FFin neg m e).
Proof.
  intros H. apply float_ok_inv in H as (H & O). unfold parse_float, json_float. fold (sign_text neg). destruct H as [(-> & ->)|H].
  - destruct neg; reflexivity.
  - destruct (negb (m =? 0)%N && _)%bool.
    + rewrite layout_e_parse by exact H. rewrite normalize_done, O by exact H. reflexivity.
    + destruct (layout_f_parse neg m e H) as (m' & e' & P & NM). rewrite P, NM, O. reflexivity.
Qed.

Lemma parse_xml_float b neg m e : float_ok b (FFin neg m e) = true ->
  parse_float b (xml_float (FFin neg m e)) = Some (FFin neg m e).
Proof.
  intros H. apply float_ok_inv in H as (H & O). unfold parse_float, xml_float. fold (sign_text neg). destruct H as [(-> & ->)|H].
  - destruct neg; reflexivity.
  - destruct (N.eqb_spec m 0) as [->|M]; [exfalso; apply H; reflexivity|]. destruct (_ || _)%bool.
    + rewrite layout_e_parse by exact H. rewrite normalize_done, O by exact H. reflexivity.
    + destruct (layout_f_parse neg m e H) as (m' & e' & P & NM). rewrite P, NM, O. reflexivity.
Qed.
