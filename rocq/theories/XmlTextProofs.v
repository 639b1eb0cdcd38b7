(** The text of a tree parses back to the tree. *)
From Verif Require Import Base Types Univ Wt LinkModel NumbersProofs Numbers Utf8 JsonText XmlModel XmlSpec XmlValues XmlNeat XmlTop XmlText.
From Coq Require Import Lia.
Local Open Scope string_scope.

Lemma byte_is a n : byte_of a = n -> a = ascii_of_N n.
Proof. unfold byte_of. intros <-. symmetry. apply ascii_N_embedding. Qed.
Lemma app_assoc_s (a b c : string) : (a ++ b) ++ c = a ++ (b ++ c).
Proof. induction a as [|x a IH]; [reflexivity|]. cbn. rewrite IH. reflexivity. Qed.
Lemma length_app_s (a b : string) : String.length (a ++ b) = (String.length a + String.length b)%nat.
Proof. induction a as [|x a IH]; [reflexivity|]. cbn. rewrite IH. reflexivity. Qed.
Lemma add_before_app p q r : add_before p (add_before q r) = add_before (p ++ q) r.
Proof. destruct r as [(x & rest)|]; [|reflexivity]. cbn. rewrite app_assoc_s. reflexivity. Qed.

(** ** Texts *)

Definition special (a : ascii) : bool := existsb (N.eqb (byte_of a)) [34; 39; 38; 60; 62; 9; 10; 13]%N.
Lemma escape_plain a : special a = false -> xml_escape_byte a = String a "".
Proof.
  unfold special, xml_escape_byte. cbn [existsb]. rewrite !Bool.orb_false_iff. intros (-> & -> & -> & -> & -> & -> & -> & -> & _). reflexivity.
Qed.
Definition special_bytes : list (ascii * string) :=
  [("034"%char, "&#34;"); ("'"%char, "&#39;"); ("&"%char, "&amp;"); ("<"%char, "&lt;"); (">"%char, "&gt;"); ("009"%char, "&#x9;"); ("010"%char, "&#xA;"); ("013"%char, "&#xD;")].
Lemma escape_special a : special a = true -> In (a, xml_escape_byte a) special_bytes.
Proof.
  unfold special. cbn [existsb]. rewrite !Bool.orb_true_iff, !N.eqb_eq. intros H.
  repeat (destruct H as [H|H]; [apply byte_is in H; subst a; cbn; auto 10|]). discriminate.
Qed.
Definition plain_quote (q : option ascii) : Prop := q = None \/ q = Some quote_mark.
Lemma read_special q a e b0 b1 r : plain_quote q -> In (a, e) special_bytes ->
  read_text q None b0 b1 (e ++ r) = add_before (String a "") (read_text q None "000" "000" r).
Proof.
  intros Q I. cbn in I. repeat (destruct I as [I|I]; [injection I as <- <-; destruct Q; subst q|]); try destruct I;
  cbn -[Ascii.eqb]; change (Ascii.eqb "&" ">") with false; rewrite ?Bool.andb_false_r; reflexivity.
Qed.
Lemma not_special a c : special a = false -> special c = true -> Ascii.eqb a c = false.
Proof. intros A C. apply Ascii.eqb_neq. intros ->. congruence. Qed.
Lemma read_plain q a b0 b1 r : plain_quote q -> special a = false -> b1 <> "013"%char ->
  read_text q None b0 b1 (String a r) = add_before (String a "") (read_text q None b1 a r).
Proof.
  intros Q A B. cbn [read_text]. rewrite (not_special a ">" A eq_refl), (not_special a "<" A eq_refl), (not_special a "&" A eq_refl), (not_special a "013" A eq_refl).
  rewrite (proj2 (Ascii.eqb_neq _ _) B), !Bool.andb_false_r. cbn [andb].
  destruct Q as [->| ->]; [reflexivity|]. rewrite (not_special a quote_mark A eq_refl). reflexivity.
Qed.
(** Escaped text is read back, up to whatever ends it. *)
Lemma read_escaped q s : plain_quote q -> forall b0 b1 r, b1 <> "013"%char ->
  exists c0 c1, c1 <> "013"%char /\ read_text q None b0 b1 (xml_escape s ++ r) = add_before s (read_text q None c0 c1 r).
Proof.
  intros Q. induction s as [|a s IH]; intros b0 b1 r B.
  - exists b0, b1. split; [exact B|]. cbn [xml_escape append]. destruct (read_text _ _ _ _ r) as [(? & ?)|]; reflexivity.
  - cbn [xml_escape]. rewrite app_assoc_s. destruct (special a) eqn:A.
    + rewrite (read_special q a _ b0 b1 _ Q (escape_special a A)). destruct (IH "000" "000" r)%char as (c0 & c1 & C & E); [discriminate|]. exists c0, c1. split; [exact C|].
      rewrite E, add_before_app. reflexivity.
    + rewrite (escape_plain a A). cbn [append]. rewrite (read_plain q a b0 b1 _ Q A B).
      destruct (IH b1 a r) as (c0 & c1 & C & E). { intros ->. discriminate. } exists c0, c1. split; [exact C|]. rewrite E, add_before_app. reflexivity.
Qed.
Lemma read_stop_text b0 b1 r : read_text None None b0 b1 (String "<" r) = Some ("", String "<" r).
Proof. cbn [read_text]. change (Ascii.eqb "<" ">") with false. rewrite !Bool.andb_false_r. reflexivity. Qed.
Lemma read_stop_quote b0 b1 r : read_text (Some quote_mark) None b0 b1 (String quote_mark r) = Some ("", r).
Proof. reflexivity. Qed.
Lemma read_blanks n : forall b0 b1 r, b1 <> "013"%char -> exists c0 c1, c1 <> "013"%char /\ read_text None None b0 b1 (blanks n ++ r) = add_before (blanks n) (read_text None None c0 c1 r).
Proof.
  induction n as [|n IH]; intros b0 b1 r B.
  - exists b0, b1. split; [exact B|]. cbn [blanks append]. destruct (read_text _ _ _ _ r) as [(? & ?)|]; reflexivity.
  - cbn [blanks append]. rewrite (read_plain None " " b0 b1 _ (or_introl eq_refl) eq_refl B), (read_plain None " " b1 " " _ (or_introl eq_refl) eq_refl); [|discriminate].
    destruct (IH " " " " r)%char as (c0 & c1 & C & E); [discriminate|]. exists c0, c1. split; [exact C|]. rewrite E, !add_before_app. reflexivity.
Qed.
Lemma read_line n r : read_text None None "000" "000" (line n ++ String "<" r) = Some (line n, String "<" r).
Proof.
  unfold line. cbn [append]. change (read_text None None "000" "000" (String "010" (blanks n ++ String "<" r))) with
    (add_before (String "010" "") (read_text None None "000" "010" (blanks n ++ String "<" r))).
  destruct (read_blanks n "000" "010" (String "<" r))%char as (c0 & c1 & _ & ->); [discriminate|]. rewrite read_stop_text. cbn. rewrite append_nil_r. reflexivity.
Qed.

(** ** Allowed characters *)
Lemma clean_idem s : xml_clean (xml_clean s) = xml_clean s.
Proof.
  assert (G : forall n s, (String.length s <= n)%nat -> xml_clean (xml_clean s) = xml_clean s); [|exact (G _ s (le_n _))].
  induction n as [|n IH]; intros t L; [destruct t; [reflexivity|cbn in L; lia]|].
  assert (R : forall x, xml_clean (replacement ++ x) = replacement ++ xml_clean x) by reflexivity.
  destruct t as [|a s1]; [reflexivity|]. cbn [String.length] in L. cbn [xml_clean].
  destruct (one a) eqn:A.
  { destruct (xml_byte a) eqn:B; [cbn [xml_clean]; rewrite A, B; f_equal; apply IH; lia|]. rewrite R. f_equal. apply IH. lia. }
  destruct s1 as [|b s2]; [reflexivity|]. cbn [String.length] in L. destruct (two a b) eqn:B.
  { cbn [xml_clean]. rewrite A, B. do 2 f_equal. apply IH. lia. }
  destruct s2 as [|c s3]; [rewrite R; f_equal; apply IH; cbn; lia|]. cbn [String.length] in L. destruct (three a b c) eqn:C.
  { destruct (xml_three a b c) eqn:D; [cbn [xml_clean]; rewrite A, B, C, D; do 3 f_equal; apply IH; lia|]. rewrite R. f_equal. apply IH. lia. }
  destruct s3 as [|d s4]; [rewrite R; f_equal; apply IH; cbn; lia|]. cbn [String.length] in L. destruct (four a b c d) eqn:D.
  { cbn [xml_clean]. rewrite A, B, C, D. do 4 f_equal. apply IH. lia. }
  rewrite R. f_equal. apply IH. cbn. lia.
Qed.
Lemma legal_clean s : legal (xml_clean s) = true.
Proof. unfold legal. apply String.eqb_eq, clean_idem. Qed.
Lemma blanks_clean n : xml_clean (blanks n) = blanks n.
Proof. induction n as [|n IH]; [reflexivity|]. cbn [blanks append]. change (xml_clean (String " " (String " " (blanks n)))) with (String " " (String " " (xml_clean (blanks n)))). rewrite IH. reflexivity. Qed.
Lemma legal_line n : legal (line n) = true.
Proof. unfold legal, line. apply String.eqb_eq. change (xml_clean (String "010" (blanks n))) with (String "010" (xml_clean (blanks n))). rewrite blanks_clean. reflexivity. Qed.

(** ** Names *)
Definition name_ok (s : string) : bool := is_name s && str_all (fun a => negb (Ascii.eqb a ":")) s.
Definition stops (c : ascii) : bool := existsb (Ascii.eqb c) [" "; ">"; "="]%char.
Lemma span_stop p s c r : str_all p s = true -> p c = false -> span p (s ++ String c r) = (s, String c r).
Proof.
  intros S C. induction s as [|a s IH]; cbn [append span]; [rewrite C; reflexivity|]. cbn [str_all] in S. apply andb_prop in S as (A & S). rewrite A, (IH S). reflexivity.
Qed.
Lemma str_all_weaken (p q : ascii -> bool) s : (forall a, p a = true -> q a = true) -> str_all p s = true -> str_all q s = true.
Proof. intros H. induction s as [|a s IH]; [reflexivity|]. cbn. intros E. apply andb_prop in E as (A & B). rewrite (H a A), (IH B). reflexivity. Qed.
Lemma name_bytes s : is_name s = true -> str_all name_byte s = true.
Proof.
  destruct s as [|a s]; [discriminate|]. cbn [is_name str_all]. intros H. apply andb_prop in H as (A & B). rewrite B, Bool.andb_true_r. unfold name_byte.
  cbn [existsb] in *. rewrite !Bool.orb_true_iff in *. intuition.
Qed.
Lemma cut_none s : str_all (fun a => negb (Ascii.eqb a ":")) s = true -> cut s = None.
Proof. induction s as [|a s IH]; [reflexivity|]. cbn [str_all cut]. intros H. apply andb_prop in H as (A & B). apply negb_true_iff in A. rewrite A, (IH B). reflexivity. Qed.
Lemma read_ok s c r : name_ok s = true -> stops c = true -> read_pname (s ++ String c r) = Some (("", s), String c r).
Proof.
  intros N C. unfold name_ok in N. apply andb_prop in N as (N & K). unfold read_pname, read_name. rewrite span_stop.
  - rewrite N. unfold split_name. rewrite (cut_none s K). reflexivity.
  - apply (str_all_weaken name_byte); [intros a ->; reflexivity|apply name_bytes, N].
  - unfold stops in C. cbn in C. rewrite !Bool.orb_true_iff, !Ascii.eqb_eq in C. intuition (subst; try discriminate; reflexivity).
Qed.
Definition name_start (a : ascii) : bool := in_range "A" "Z" a || in_range "a" "z" a || existsb (Ascii.eqb a) ["_"; ":"]%char.
Lemma name_head s : name_ok s = true -> exists a s', s = String a s' /\ name_start a = true.
Proof. unfold name_ok. intros H. apply andb_prop in H as (H & _). destruct s as [|a s]; [discriminate|]. cbn [is_name] in H. apply andb_prop in H as (A & _). eauto. Qed.
Lemma start_no_space a s : name_start a = true -> skip_space (String a s) = String a s.
Proof. destruct a as [[] [] [] [] [] [] [] []]; intros H; try discriminate H; reflexivity. Qed.

(** ** Tags *)
Lemma attrs_name fuel a s : name_start a = true -> read_attrs (S fuel) (String a s) =
  match read_pname (String a s) with
  | None => None
  | Some (n, s2) =>
      match skip_space s2 with
      | String "=" s3 => match read_value (skip_space s3) with
                         | None => None
                         | Some (v, s4) => match read_attrs fuel s4 with
                                           | Some (l, e, r) => Some ((n, v) :: l, e, r)
                                           | None => None
                                           end
                         end
      | _ => None
      end
  end.
Proof. intros H. cbn [read_attrs]. rewrite (start_no_space a s H). destruct a as [[] [] [] [] [] [] [] []]; try discriminate H; reflexivity. Qed.
Lemma attrs_space fuel s : read_attrs (S fuel) (String " " s) = read_attrs (S fuel) s.
Proof.
  cbn [read_attrs]. replace (skip_space (String " " s)) with (skip_space s); [reflexivity|]. unfold skip_space. cbn [span]. change (space_byte " ") with true. cbn iota.
  destruct (span space_byte s). reflexivity.
Qed.
Definition attr_ok (p : string * string) : Prop := name_ok (fst p) = true /\ legal (snd p) = true.
Definition bare (p : string * string) : pname * string := (("", fst p), snd p).
Lemma read_value_ok s r : legal s = true -> read_value (String quote_mark (xml_escape s ++ String quote_mark r)) = Some (s, r).
Proof.
  intros L. cbn [read_value]. change (Ascii.eqb quote_mark "'" || Ascii.eqb quote_mark quote_mark)%bool with true. cbn iota.
  destruct (read_escaped (Some quote_mark) s (or_intror eq_refl) "000" "000" (String quote_mark r))%char as (c0 & c1 & _ & ->); [discriminate|].
  rewrite read_stop_quote. cbn [add_before checked_text]. rewrite append_nil_r, L. reflexivity.
Qed.
Lemma read_attrs_ok l : forall fuel r, (length l < fuel)%nat -> Forall attr_ok l ->
  read_attrs fuel (concat_map attr_text l ++ String ">" r) = Some (map bare l, false, r).
Proof.
  induction l as [|(n & v) l IH]; intros [|fuel] r F A; cbn [length] in F; try lia; [reflexivity|]. inversion A as [|x y (N & L) A']; subst. cbn [fst snd] in *.
  cbn [concat_map map]. rewrite app_assoc_s. unfold attr_text at 1. cbn [fst snd append]. rewrite attrs_space. destruct (name_head n N) as (a & s & -> & Hs).
  rewrite !app_assoc_s. cbn [append]. rewrite (attrs_name _ _ _ Hs). change (String a (s ++ ?x)) with (String a s ++ x) at 1. rewrite (read_ok (String a s) "=" _ N eq_refl).
  change (skip_space (String "=" ?x)) with (String "=" x). cbn iota. change (skip_space (String quote_mark ?x)) with (String quote_mark x). rewrite app_assoc_s. cbn [append].
  rewrite (read_value_ok v _ L), IH; [reflexivity|lia|exact A'].
Qed.
Lemma attrs_length l : (length l <= String.length (concat_map attr_text l))%nat.
Proof. induction l as [|p l IH]; [apply le_n|]. cbn [concat_map length]. rewrite length_app_s. unfold attr_text at 1. cbn. lia. Qed.
Lemma token_name a s : name_start a = true -> next_token (String "<" (String a s)) =
  match read_pname (String a s) with
  | Some (n, s2) => match read_attrs (S (String.length s2)) s2 with Some (l, e, r) => Some (TStart n l e, r) | None => None end
  | None => None
  end.
Proof. intros H. destruct a as [[] [] [] [] [] [] [] []]; try discriminate H; reflexivity. Qed.
Lemma attrs_first l r : exists c x, concat_map attr_text l ++ String ">" r = String c x /\ stops c = true.
Proof. destruct l as [|p l]; cbn; eauto. Qed.
Lemma token_start l attrs r : name_ok l = true -> Forall attr_ok attrs -> next_token (start_text l attrs ++ r) = Some (TStart ("", l) (map bare attrs) false, r).
Proof.
  intros N A. unfold start_text. cbn [append]. rewrite !app_assoc_s. cbn [append]. destruct (name_head l N) as (a & s & -> & Hs). cbn [append].
  rewrite (token_name a _ Hs). change (String a (s ++ ?x)) with (String a s ++ x). destruct (attrs_first attrs r) as (c & x & E & C). pose proof E as E2. rewrite E, (read_ok (String a s) c x N C), <- E2.
  rewrite read_attrs_ok; [reflexivity| |exact A]. rewrite length_app_s. pose proof (attrs_length attrs). cbn. lia.
Qed.
Lemma token_end l r : name_ok l = true -> next_token (end_text l ++ r) = Some (TEnd ("", l), r).
Proof.
  intros N. unfold end_text. cbn [append]. rewrite app_assoc_s. cbn [append].
  change (match read_pname (l ++ String ">" r) with Some (n, s2) => match skip_space s2 with String ">" r => Some (TEnd n, r) | _ => None end | None => None end = Some (TEnd ("", l), r)).
  rewrite (read_ok l ">" r N eq_refl). reflexivity.
Qed.
Lemma token_other a s : a <> "<"%char -> next_token (String a s) = match checked_text (read_text None None "000" "000" (String a s)) with Some (x, r) => Some (TText x, r) | None => None end.
Proof. intros H. destruct a as [[] [] [] [] [] [] [] []]; try reflexivity. exfalso. apply H. reflexivity. Qed.
Lemma escape_head s : s <> "" -> exists a t, xml_escape s = String a t /\ a <> "<"%char.
Proof.
  destruct s as [|a s]; [congruence|]. intros _. cbn [xml_escape]. destruct (special a) eqn:A.
  - apply escape_special in A. remember (xml_escape_byte a) as e. cbn in A. repeat (destruct A as [A|A]; [injection A as <- <-; eexists _, _; split; [reflexivity|discriminate]|]). destruct A.
  - rewrite (escape_plain a A). eexists a, _. split; [reflexivity|]. intros ->. discriminate.
Qed.
Lemma token_text s r : s <> "" -> legal s = true -> next_token (xml_escape s ++ String "<" r) = Some (TText s, String "<" r).
Proof.
  intros E L. destruct (escape_head s E) as (a & t & Q & A). rewrite Q. cbn [append]. rewrite (token_other a _ A). change (String a (t ++ ?x)) with (String a t ++ x). rewrite <- Q.
  destruct (read_escaped None s (or_introl eq_refl) "000" "000" (String "<" r))%char as (c0 & c1 & _ & ->); [discriminate|]. rewrite read_stop_text. cbn [add_before checked_text]. rewrite append_nil_r, L. reflexivity.
Qed.
Lemma token_line n r : next_token (line n ++ String "<" r) = Some (TText (line n), String "<" r).
Proof.
  unfold line at 1. cbn [append]. rewrite token_other by discriminate. change (String "010" (blanks n ++ ?x)) with (line n ++ x). rewrite read_line. cbn [checked_text]. rewrite legal_line. reflexivity.
Qed.

(** ** Trees *)

(** What the encoder writes: no prefixes, names that need no care, allowed characters,
    either child elements or one text. *)
Fixpoint proper (x : xml) : Prop :=
  match x with
  | XText s => s <> "" /\ legal s = true
  | XElem _ l attrs kids =>
      name_ok l = true /\ l <> "xmlns" /\ Forall attr_ok attrs /\
      (forallb is_elem kids = true \/ exists s, kids = [XText s]) /\ list_all proper kids
  end.

(** Some steps of [build] and what they consume. *)
Definition steps (s : string) (st : list frame) (s' : string) (st' : list frame) : Prop :=
  exists n, (n + String.length s' <= String.length s)%nat /\ forall fuel, build (n + fuel) s st = build fuel s' st'.
Lemma steps_trans s1 st1 s2 st2 s3 st3 : steps s1 st1 s2 st2 -> steps s2 st2 s3 st3 -> steps s1 st1 s3 st3.
Proof. intros (n & L & H) (m & K & G). exists (n + m)%nat. split; [lia|]. intros fuel. rewrite <- Nat.add_assoc, H. apply G. Qed.
Lemma steps_refl s st : steps s st s st.
Proof. exists 0%nat. split; [cbn; lia|reflexivity]. Qed.
Lemma step_text s r f st : s <> "" -> legal s = true -> steps (xml_escape s ++ String "<" r) (f :: st) (String "<" r) (add_kid (XText s) f :: st).
Proof.
  intros E L. exists 1%nat. split.
  - rewrite length_app_s. destruct (escape_head s E) as (a & t & -> & _). cbn. lia.
  - intros fuel. cbn [Nat.add build]. rewrite (token_text s r E L). reflexivity.
Qed.
Lemma step_line n r f st : steps (line n ++ String "<" r) (f :: st) (String "<" r) (add_kid (newline n) f :: st).
Proof.
  exists 1%nat. split; [rewrite length_app_s; cbn; lia|]. intros fuel. cbn [Nat.add build]. rewrite token_line. reflexivity.
Qed.
Lemma step_start l attrs r f st : name_ok l = true -> Forall attr_ok attrs ->
  steps (start_text l attrs ++ r) (f :: st) r (mkFrame ("", l) (declare (map bare attrs) (fr_ns f)) (map bare attrs) [] :: f :: st).
Proof.
  intros N A. exists 1%nat. split; [rewrite length_app_s; cbn; lia|]. intros fuel. cbn [Nat.add build]. rewrite (token_start l attrs r N A). reflexivity.
Qed.
Lemma step_end l r ns attrs kids f st : name_ok l = true ->
  steps (end_text l ++ r) (mkFrame ("", l) ns attrs kids :: f :: st) r (add_kid (closed (mkFrame ("", l) ns attrs kids)) f :: st).
Proof.
  intros N. exists 1%nat. split; [rewrite length_app_s; cbn; lia|]. intros fuel. cbn [Nat.add build]. rewrite (token_end l r N). unfold pname_eqb. cbn [fst snd fr_name]. rewrite !String.eqb_refl. reflexivity.
Qed.

(** Only the default name space is ever declared. *)
Definition in_space (ns : spaces_in_force) : string := match assoc "" ns with Some u => u | None => "" end.
Lemma declare_bare attrs : forall ns, in_space (declare (map bare attrs) ns) = declared attrs (in_space ns).
Proof.
  induction attrs as [|(n & v) attrs IH]; intros ns; [reflexivity|]. cbn [map bare declare declared fst snd]. cbn [String.eqb andb]. rewrite IH. f_equal.
  destruct (String.eqb n "xmlns"); reflexivity.
Qed.
Lemma local_bare attrs : local_attrs (map bare attrs) = attrs.
Proof. unfold local_attrs. rewrite map_map. rewrite <- (map_id attrs) at 2. apply map_ext. intros (n & v). reflexivity. Qed.
Lemma closed_bare l ns attrs kids : l <> "xmlns" -> closed (mkFrame ("", l) ns (map bare attrs) kids) = XElem (in_space ns) l attrs (rev kids).
Proof.
  intros N. unfold closed. cbn [fr_name fr_ns fr_attrs fr_kids fst snd]. rewrite local_bare. f_equal. unfold element_space. cbn [fst snd String.eqb andb].
  rewrite (proj2 (String.eqb_neq _ _) N). reflexivity.
Qed.

(** What is seen of the children. *)
Definition laid_out (pretty : bool) (depth : nat) (x : xml) : xml := if pretty then indent depth x else x.
Definition add_kids (ks : list xml) (f : frame) : frame := mkFrame (fr_name f) (fr_ns f) (fr_attrs f) (rev ks ++ fr_kids f)%list.
Lemma add_kids_nil f : add_kids [] f = f.
Proof. destruct f. reflexivity. Qed.
Lemma add_kids_one x f : add_kid x f = add_kids [x] f.
Proof. reflexivity. Qed.
Lemma add_kids_app a b f : add_kids b (add_kids a f) = add_kids (a ++ b) f.
Proof. unfold add_kids. cbn. rewrite rev_app_distr, app_assoc. reflexivity. Qed.

Definition reads_back (pretty : bool) (x : xml) : Prop := is_elem x = true -> proper x -> forall depth r f st,
  steps (xml_text pretty depth x ++ r) (f :: st) r (add_kid (resolve (in_space (fr_ns f)) (laid_out pretty depth x)) f :: st).
Lemma text_head pretty depth x : is_elem x = true -> exists t, xml_text pretty depth x = String "<" t.
Proof. destruct x as [s|sp l a ks]; [discriminate|]. intros _. cbn [xml_text start_text append]. eexists. reflexivity. Qed.
Lemma read_kids_compact depth ks : Forall (reads_back false) ks -> forallb is_elem ks = true -> list_all proper ks -> forall r f st,
  steps (concat_map (xml_text false depth) ks ++ r) (f :: st) r (add_kids (map (resolve (in_space (fr_ns f))) ks) f :: st).
Proof.
  induction ks as [|k ks IH]; intros F E P r f st.
  - cbn [concat_map append map]. rewrite add_kids_nil. apply steps_refl.
  - inversion F as [|? ? Fk Fs]; subst. cbn [forallb] in E. apply andb_prop in E as (Ek & Es). destruct P as (Pk & Ps). cbn [concat_map]. rewrite app_assoc_s.
    eapply steps_trans; [apply (Fk Ek Pk)|]. rewrite add_kids_one. eapply steps_trans; [apply (IH Fs Es Ps)|]. rewrite add_kids_app. apply steps_refl.
Qed.
Lemma read_kids_pretty depth ks : Forall (reads_back true) ks -> forallb is_elem ks = true -> list_all proper ks -> forall r f st,
  steps (concat_map (fun k => match k with XText s => xml_escape s | _ => line (S depth) ++ xml_text true (S depth) k end) ks ++ r) (f :: st)
        r (add_kids (map (resolve (in_space (fr_ns f))) (flat_map (laid depth) ks)) f :: st).
Proof.
  induction ks as [|k ks IH]; intros F E P r f st.
  - cbn [concat_map append flat_map map]. rewrite add_kids_nil. apply steps_refl.
  - inversion F as [|? ? Fk Fs]; subst. cbn [forallb] in E. apply andb_prop in E as (Ek & Es). destruct P as (Pk & Ps). cbn [concat_map flat_map].
    destruct k as [s|sp l a kk]; [discriminate|]. remember (XElem sp l a kk) as k eqn:Hk.
    replace (match k with XText s => xml_escape s | _ => line (S depth) ++ xml_text true (S depth) k end) with (line (S depth) ++ xml_text true (S depth) k) by (rewrite Hk; reflexivity).
    replace (laid depth k) with [newline (S depth); indent (S depth) k] by (rewrite Hk; reflexivity).
    rewrite !app_assoc_s. destruct (text_head true (S depth) k Ek) as (t & T).
    eapply steps_trans. { rewrite T. cbn [append]. apply step_line. }
    change (String "<" (t ++ ?x)) with (String "<" t ++ x). rewrite <- T. eapply steps_trans; [apply (Fk Ek Pk)|].
    rewrite !add_kids_one. eapply steps_trans; [apply (IH Fs Es Ps)|]. rewrite !add_kids_app. apply steps_refl.
Qed.
Lemma end_head l : exists t, end_text l = String "<" t.
Proof. eexists. reflexivity. Qed.
Lemma elem_texts ks : forallb is_elem ks = true -> existsb is_elem ks = negb (match ks with [] => true | _ => false end).
Proof. destruct ks as [|k ks]; [reflexivity|]. cbn. intros H. apply andb_prop in H as (-> & _). reflexivity. Qed.
(** The inside of an element, up to its end tag. *)
Lemma read_inside pretty depth sp l a ks r f st : Forall (reads_back pretty) ks -> proper (XElem sp l a ks) ->
  steps ((if (pretty && existsb is_elem ks)%bool
          then concat_map (fun k => match k with XText s => xml_escape s | _ => line (S depth) ++ xml_text pretty (S depth) k end) ks ++ line depth
          else concat_map (xml_text pretty depth) ks) ++ end_text l ++ r) (f :: st)
        (end_text l ++ r)
        (add_kids (map (resolve (in_space (fr_ns f))) (match laid_out pretty depth (XElem sp l a ks) with XElem _ _ _ kk => kk | XText _ => [] end)) f :: st).
Proof.
  intros F (N & _ & A & K & P). destruct (end_head l) as (t & T). destruct K as [K|(s & ->)].
  - destruct pretty.
    + cbn [andb]. unfold laid_out. rewrite indent_laid, (elem_texts ks K). destruct ks as [|k ks]; [cbn; rewrite add_kids_nil; apply steps_refl|]. cbn [negb].
      rewrite app_assoc_s. eapply steps_trans; [apply (read_kids_pretty depth (k :: ks) F K P)|]. rewrite map_app, <- add_kids_app. rewrite T. cbn [append]. cbn [map resolve].
      change (add_kids [newline depth]) with (add_kid (newline depth)). apply step_line.
    + cbn [andb]. unfold laid_out. apply (read_kids_compact depth ks F K P).
  - cbn [existsb is_elem orb]. rewrite Bool.andb_false_r. destruct P as ((E & L) & _). cbn [concat_map xml_text]. rewrite append_nil_r.
    replace (match laid_out pretty depth (XElem sp l a [XText s]) with XElem _ _ _ kk => kk | XText _ => [] end) with [XText s] by (destruct pretty; reflexivity).
    cbn [map resolve]. rewrite <- add_kids_one. rewrite T. cbn [append]. apply step_text; assumption.
Qed.
Lemma laid_shape pretty depth sp l a ks : laid_out pretty depth (XElem sp l a ks) = XElem sp l a (match laid_out pretty depth (XElem sp l a ks) with XElem _ _ _ kk => kk | XText _ => [] end).
Proof. destruct pretty; [|reflexivity]. unfold laid_out. rewrite indent_laid. destruct (existsb is_elem ks); reflexivity. Qed.
Lemma all_read_back pretty x : reads_back pretty x.
Proof.
  induction x as [s|sp l a ks IH] using xml_induction; intros E P depth r f st; [discriminate|]. pose proof P as (N & X & A & _).
  cbn [xml_text]. rewrite !app_assoc_s. eapply steps_trans; [apply (step_start l a _ f st N A)|].
  eapply steps_trans; [apply (read_inside pretty depth sp l a ks r _ _ IH P)|].
  unfold add_kids. cbn [fr_name fr_ns fr_attrs fr_kids]. rewrite app_nil_r. eapply steps_trans; [apply (step_end l r _ _ _ f st N)|].
  rewrite (closed_bare _ _ _ _ X), rev_involutive, declare_bare. rewrite (laid_shape pretty depth sp l a ks) at 2. cbn [resolve]. apply steps_refl.
Qed.
(** A document of one element. *)
Theorem parse_element pretty x r : is_elem x = true -> proper x -> forall fuel,
  (String.length (xml_text pretty 0 x ++ r) <= fuel)%nat -> build fuel (xml_text pretty 0 x ++ r) [] = Some (resolve "" (laid_out pretty 0 x), r).
Proof.
  intros E P fuel F. destruct x as [s|sp l a ks]; [discriminate|]. pose proof P as (N & X & A & _). cbn [xml_text] in *. rewrite !app_assoc_s in *.
  assert (S1 : exists g, fuel = S g). { rewrite length_app_s in F. cbn in F. destruct fuel; [lia|eauto]. } destruct S1 as (g & ->). cbn [build]. rewrite (token_start l a _ N A).
  destruct (read_inside pretty 0 sp l a ks r (mkFrame ("", l) (declare (map bare a) []) (map bare a) []) [] (proj2 (Forall_forall _ _) (fun k _ => all_read_back pretty k)) P) as (n & Ln & B).
  cbn iota. assert (G : exists h, g = (n + S h)%nat).
  { exists (g - n - 1)%nat. assert (1 <= String.length (end_text l ++ r))%nat by (cbn; lia). assert (1 <= String.length (start_text l a))%nat by (cbn; lia). rewrite length_app_s in F. cbn [Nat.add] in *. lia. }
  destruct G as (h & ->). rewrite B. cbn [build]. rewrite (token_end l r N). unfold pname_eqb, add_kids. cbn [fst snd fr_name fr_ns fr_attrs fr_kids]. rewrite !String.eqb_refl. cbn [andb].
  rewrite (closed_bare _ _ _ _ X), app_nil_r, rev_involutive, declare_bare. rewrite (laid_shape pretty 0 sp l a ks) at 2. reflexivity.
Qed.
