(** Texts of simple values: what xml.EscapeText writes and copyValue reads. *)
From Verif Require Import Base Types Univ TypeTable Wt ReifyBase Consts LinkModel LinkProofs Numbers NumbersProofs Utf8 Utf8Proofs JsonModel XmlModel XmlBack.
From Coq Require Import Lia.
Local Open Scope string_scope.

(** ** Visible characters *)
Definition visible (a : ascii) : bool := ((0x21 <=? byte_of a) && (byte_of a <=? 0x7E))%N.
Lemma visible_iff a : visible a = true <-> (0x21 <= byte_of a <= 0x7E)%N.
Proof. unfold visible. rewrite Bool.andb_true_iff, !N.leb_le. reflexivity. Qed.
Lemma visible_app a b : str_all visible (a ++ b) = (str_all visible a && str_all visible b)%bool.
Proof. induction a as [|c a IH]; [reflexivity|]. cbn. rewrite IH. apply Bool.andb_assoc. Qed.

Lemma clean_visible s : str_all visible s = true -> xml_clean s = s.
Proof.
  induction s as [|a s IH]; [reflexivity|]. cbn [str_all]. intros H. apply andb_prop in H as (A & H).
  apply visible_iff in A. cbn [xml_clean].
  assert (O : one a = true) by (apply one_iff; lia). rewrite O.
  assert (B : xml_byte a = true) by (unfold xml_byte; apply Bool.orb_true_iff; left; apply N.leb_le; lia).
  rewrite B, (IH H). reflexivity.
Qed.

Lemma rev_acc s : forall acc, string_rev s acc = string_rev s "" ++ acc.
Proof.
  induction s as [|a s IH]; intros acc; [reflexivity|]. cbn [string_rev]. rewrite IH, (IH (String a "")), append_assoc. reflexivity.
Qed.
Lemma rev_app a : forall b, string_rev (a ++ b) "" = string_rev b "" ++ string_rev a "".
Proof.
  induction a as [|c a IH]; intros b.
  - cbn. symmetry. apply append_nil_r.
  - cbn [append string_rev]. rewrite (rev_acc (a ++ b)), (rev_acc a), IH, append_assoc. reflexivity.
Qed.
Lemma rev_rev s : string_rev (string_rev s "") "" = s.
Proof. induction s as [|a s IH]; [reflexivity|]. cbn [string_rev]. rewrite (rev_acc s), rev_app, IH. reflexivity. Qed.
Lemma rev_visible s : str_all visible s = true -> str_all visible (string_rev s "") = true.
Proof.
  induction s as [|a s IH]; [reflexivity|]. cbn [str_all string_rev]. intros H. apply andb_prop in H as (A & H).
  rewrite rev_acc, visible_app, (IH H). cbn. rewrite A. reflexivity.
Qed.

Definition starts_unseen (p : string) : bool := match p with "" => false | String b _ => negb (visible b) end.
Lemma find_none spaces a s : forallb starts_unseen spaces = true -> visible a = true ->
  find (fun p => String.prefix p (String a s)) spaces = None.
Proof.
  intros F V. induction spaces as [|p spaces IH]; [reflexivity|]. cbn [forallb] in F. apply andb_prop in F as (P & F).
  cbn [find]. destruct p as [|b p]; [discriminate|]. cbn [String.prefix].
  destruct (ascii_dec b a) as [->|_]; [|apply IH, F]. cbn in P. rewrite V in P. discriminate.
Qed.
Lemma trim_front_visible n spaces s : forallb starts_unseen spaces = true -> str_all visible s = true -> trim_front n spaces s = s.
Proof.
  intros F V. destruct n as [|n]; [reflexivity|]. destruct s as [|a s].
  - cbn [trim_front]. assert (E : find (fun p => String.prefix p "") spaces = None).
    { clear V. induction spaces as [|p spaces IH]; [reflexivity|]. cbn [forallb] in F. apply andb_prop in F as (P & F).
      cbn [find]. destruct p; [discriminate|]. cbn. apply IH, F. }
    rewrite E. reflexivity.
  - cbn [str_all] in V. apply andb_prop in V as (A & V). cbn [trim_front]. rewrite (find_none spaces a s F A). reflexivity.
Qed.
Lemma trim_visible s : str_all visible s = true -> trim_space s = s.
Proof.
  intros V. unfold trim_space. rewrite (trim_front_visible _ space_bytes s); [|reflexivity|exact V].
  rewrite trim_front_visible; [apply rev_rev|reflexivity|apply rev_visible, V].
Qed.

(** ** Numbers *)
Lemma digits_visible s : digits s = true -> str_all visible s = true.
Proof.
  unfold digits. induction s as [|a s IH]; [reflexivity|]. cbn [str_all]. intros H. apply andb_prop in H as (A & H).
  rewrite (IH H), Bool.andb_true_r. unfold is_digit, in_range in A.
  apply andb_prop in A as (A & B). apply N.leb_le in A, B. apply visible_iff.
  change (byte_of "0") with 48%N in A. change (byte_of "9") with 57%N in B. unfold byte_of in *. lia.
Qed.
Lemma format_visible z : str_all visible (format_int z) = true.
Proof.
  destruct (Z.ltb_spec z 0).
  - rewrite format_int_neg by assumption. cbn [str_all]. apply digits_visible, format_int_digits. lia.
  - apply digits_visible, format_int_digits. assumption.
Qed.
Lemma substring_visible i n s : str_all visible s = true -> str_all visible (String.substring i n s) = true.
Proof.
  revert i n. induction s as [|a s IH]; intros i n V; [destruct i, n; reflexivity|].
  cbn [str_all] in V. apply andb_prop in V as (A & V). destruct i as [|i].
  - destruct n as [|n]; [reflexivity|]. cbn. rewrite A. apply IH, V.
  - cbn. apply IH, V.
Qed.
Lemma zeros_visible n : str_all visible (Numbers.zeros n) = true.
Proof. apply digits_visible, digits_zeros. Qed.
Lemma digits_text_visible m : str_all visible (float_digits m) = true.
Proof. apply digits_visible, float_digits_ok. Qed.
Lemma layout_f_visible m e : str_all visible (layout_f m e) = true.
Proof.
  unfold layout_f. destruct (m =? 0)%N; [reflexivity|]. destruct (float_point m e <=? 0)%Z; [|destruct (0 <=? e)%Z];
    rewrite ?visible_app, ?zeros_visible, ?digits_text_visible, ?substring_visible by apply digits_text_visible; reflexivity.
Qed.
Lemma exponent_visible pad x : str_all visible (exponent_text pad x) = true.
Proof.
  unfold exponent_text. rewrite !visible_app, format_visible. destruct (x <? 0)%Z, (pad && (Z.abs x <? 10)%Z)%bool; reflexivity.
Qed.
Lemma layout_e_visible pad m e : str_all visible (layout_e pad m e) = true.
Proof.
  unfold layout_e. pose proof (digits_text_visible m) as D. destruct (float_digits m) as [|a r]; [reflexivity|].
  cbn [str_all] in D. apply andb_prop in D as (A & D). destruct r as [|b r].
  - cbn [str_all append]. rewrite A. cbn. apply exponent_visible.
  - cbn [str_all append] in *. apply andb_prop in D as (B & D). rewrite A, B. cbn. rewrite visible_app, D. cbn. apply exponent_visible.
Qed.
Lemma float_visible f : str_all visible (xml_float f) = true.
Proof.
  destruct f as [neg m e|neg|]; [|destruct neg; reflexivity|reflexivity]. unfold xml_float. rewrite visible_app.
  destruct neg; cbn; (destruct (m =? 0)%N; [reflexivity|]; destruct ((float_point m e - 1 <? -4)%Z || (6 <=? float_point m e - 1)%Z)%bool; [apply layout_e_visible|apply layout_f_visible]).
Qed.

(** The first character of an unsigned float is a digit. *)
Definition unsigned_float (m : N) (e : Z) : string :=
  if (m =? 0)%N then "0"
  else if ((float_point m e - 1 <? -4)%Z || (6 <=? float_point m e - 1)%Z)%bool then layout_e true m e else layout_f m e.
Lemma xml_float_fin neg m e : xml_float (FFin neg m e) = (if neg then "-" else "") ++ unsigned_float m e.
Proof. reflexivity. Qed.
Lemma substring_head n a r : exists r', String.substring 0 (S n) (String a r) = String a r'.
Proof. cbn. eauto. Qed.
Lemma unsigned_head m e : exists a r, unsigned_float m e = String a r /\ is_digit a = true.
Proof.
  unfold unsigned_float. destruct (m =? 0)%N; [exists "0"%char, ""; auto|].
  destruct (float_digits_ok m) as (D & _ & N).
  destruct ((float_point m e - 1 <? -4)%Z || (6 <=? float_point m e - 1)%Z)%bool.
  - unfold layout_e. destruct (float_digits m) as [|a r]; [congruence|]. apply digits_head in D.
    destruct r; cbn; eauto.
  - unfold layout_f. destruct (m =? 0)%N; [exists "0"%char, ""; auto|].
    destruct (Z.leb_spec (float_point m e) 0); [cbn; eauto|].
    destruct (float_digits m) as [|a r] eqn:E; [congruence|]. apply digits_head in D. destruct (0 <=? e)%Z.
    + cbn. eauto.
    + destruct (Z.to_nat (float_point m e)) as [|n] eqn:F; [lia|]. destruct (substring_head n a r) as (r' & ->). cbn. eauto.
Qed.

Lemma lower_digit a s : is_digit a = true -> lower_string (String a s) = String a (lower_string s).
Proof.
  intros D. cbn [lower_string]. replace (in_range "A" "Z" a) with false; [reflexivity|]. symmetry.
  unfold is_digit, in_range in *. apply andb_prop in D as (A & B). apply N.leb_le in A, B.
  change (byte_of "0") with 48%N in A. change (byte_of "9") with 57%N in B. apply Bool.andb_false_iff. left. apply N.leb_gt.
  change (byte_of "A") with 65%N. unfold byte_of in *. lia.
Qed.
Lemma digit_not a : is_digit a = true -> a <> "-"%char /\ a <> "+"%char /\ a <> "i"%char /\ a <> "n"%char.
Proof. intros D. repeat split; intros ->; discriminate. Qed.
Lemma eqb_head a s b t : a <> b -> String.eqb (String a s) (String b t) = false.
Proof. intros N. cbn. destruct (Ascii.eqb_spec a b); [contradiction|reflexivity]. Qed.

Lemma read_float bits f : (match f with FFin _ _ _ => float_ok bits f = true | _ => True end) -> read_xml_float bits (xml_float f) = Some f.
Proof.
  destruct f as [neg m e|[]|]; intros H; try reflexivity.
  pose proof (parse_xml_float bits neg m e H) as P. revert P. rewrite xml_float_fin. intros P.
  destruct (unsigned_head m e) as (a & r & E & D). rewrite E in *. destruct (digit_not a D) as (N1 & N2 & N3 & N4).
  unfold read_xml_float. destruct neg; cbn [append] in *.
  - cbv iota beta. rewrite (lower_digit a r D), !(eqb_head a _ "i") by assumption. cbn [orb].
    change (lower_string (String "-" (String a r))) with (String "-" (lower_string (String a r))).
    rewrite eqb_head by discriminate. exact P.
  - assert (S : (match String a r with String "-" r0 => (Some true, r0) | String "+" r0 => (Some false, r0) | _ => (None, String a r) end) = (None, String a r)).
    { clear - N1 N2. destruct a as [[] [] [] [] [] [] [] []]; try reflexivity; exfalso; (apply N1; reflexivity) || (apply N2; reflexivity). }
    rewrite S. rewrite (lower_digit a r D), !(eqb_head a _ "i"), (eqb_head a _ "n") by assumption. exact P.
Qed.

(** ** Cleaning *)
Lemma clean_empty s : xml_clean s = "" <-> s = "".
Proof.
  split; [|intros ->; reflexivity]. destruct s as [|a s1]; [reflexivity|]. cbn [xml_clean].
  destruct (one a); [destruct (xml_byte a); discriminate|].
  destruct s1 as [|b s2]; [discriminate|]. destruct (two a b); [discriminate|].
  destruct s2 as [|c s3]; [discriminate|]. destruct (three a b c); [destruct (xml_three a b c); discriminate|].
  destruct s3 as [|d s4]; [discriminate|]. destruct (four a b c d); discriminate.
Qed.
Lemma clean_eqb s : String.eqb (xml_clean s) "" = String.eqb s "".
Proof.
  destruct (String.eqb_spec s ""); [subst; reflexivity|]. destruct (String.eqb_spec (xml_clean s) ""); [|reflexivity].
  apply (proj1 (clean_empty s)) in e. contradiction.
Qed.

Definition cleaned (v : val) : val := match v with VStr s => VStr (xml_clean s) | _ => v end.
Definition is_simple (t : ty) : bool := match kind_of t with KStr | KInt | KBool | KFlt => true | _ => false end.

Lemma visible_nonempty z : String.eqb (format_int z) "" = false.
Proof.
  destruct (Z.ltb_spec z 0); [rewrite format_int_neg by assumption; reflexivity|].
  destruct (format_int_digits z H) as (_ & _ & N). apply String.eqb_neq, N.
Qed.
Lemma float_nonempty f : String.eqb (xml_float f) "" = false.
Proof.
  destruct f as [neg m e|[]|]; try reflexivity. rewrite xml_float_fin. destruct (unsigned_head m e) as (a & r & -> & _). destruct neg; reflexivity.
Qed.
Lemma copy_simple t v : is_simple t = true -> marshaler t <> MSpecVersion -> wt t v -> xsane t v ->
  copy_value t (xml_clean (simple v)) = Ok (cleaned v).
Proof.
  intros K M W S. unfold copy_value. destruct v as [s|z|b|f|p|l|l]; cbn [wt] in W; unfold is_simple in K;
    try (rewrite W; cbn [simple cleaned]).
  - reflexivity.
  - rewrite clean_visible by apply format_visible. rewrite visible_nonempty, trim_visible by apply format_visible.
    assert (Z : is_int z = true) by (cbn [xsane] in S; destruct (marshaler t); auto; contradiction).
    rewrite (atoi_format z Z). reflexivity.
  - destruct b; reflexivity.
  - rewrite clean_visible by apply float_visible. rewrite float_nonempty, trim_visible by apply float_visible.
    cbn [xsane] in S. rewrite read_float by exact S. reflexivity.
  - destruct (kind_of t); try contradiction; discriminate.
  - destruct (kind_of t); try contradiction; discriminate.
  - destruct (kind_of t); try contradiction; discriminate.
Qed.
