(** Reading takes every text of the grammar in XmlGrammar.v, and gives the tree that it
    stands for. *)
From Verif Require Import Base Types Univ Wt Utf8 JsonModel JsonText JsonGrammar JsonGrammarProofs XmlModel XmlValues XmlNeat XmlTop XmlText XmlTextProofs XmlTextMore XmlGrammar.
From Coq Require Import Lia.
Local Open Scope string_scope.

(** ** Parts of texts *)
Lemma occurs_cons p a s : occurs p s -> occurs p (String a s).
Proof. intros (x & y & ->). exists (String a x), y. reflexivity. Qed.
Lemma occurs_here p s : occurs p (p ++ s).
Proof. exists "", s. reflexivity. Qed.
Lemma occurs_app p a s : occurs p s -> occurs p (a ++ s).
Proof. induction a as [|x a IH]; [auto|]. intros H. apply occurs_cons, IH, H. Qed.
Lemma occurs_front p a s : occurs p a -> occurs p (a ++ s).
Proof. intros (x & y & ->). exists x, (y ++ s). rewrite !app_app. reflexivity. Qed.
Lemma occurs_nul p s : (forall t, p <> String "000" t) -> occurs p (String "000" s) -> p = "" \/ occurs p s.
Proof.
  intros N (x & y & E). destruct x as [|a x]; [|right; injection E as _ ->; exists x, y; reflexivity]. destruct p as [|b p]; [left; reflexivity|]. cbn in E. injection E as <- _. exfalso. apply (N p). reflexivity.
Qed.
Lemma occurs_nul2 p s : (forall t, p <> String "000" t) -> p <> "" -> occurs p (String "000" (String "000" s)) -> occurs p s.
Proof. intros N E H. destruct (occurs_nul p _ N H) as [->|K]; [congruence|]. destruct (occurs_nul p _ N K) as [->|G]; [congruence|exact G]. Qed.

(** ** References *)
Lemma number_ok base m d n : numeral base m d n -> number base m d = Some n.
Proof. induction 1 as [|m a v s n H L _ IH]; [reflexivity|]. cbn [number]. rewrite (proj2 (hex_spec a v) H), (proj2 (N.ltb_lt _ _) L). exact IH. Qed.
Lemma code_point_ok n : (n <= 0x10FFFF)%N -> ~ high_half n -> ~ low_half n -> code_point n = Some (rune_text n).
Proof.
  intros L H W. unfold code_point. rewrite (proj2 (N.leb_le _ _) L). destruct (high n) eqn:E; [apply high_spec in E; contradiction|]. destruct (low n) eqn:F; [apply low_spec in F; contradiction|]. reflexivity.
Qed.
Lemma numeral_plain base m d n : numeral base m d n -> str_all (fun a => negb (Ascii.eqb a ";")) d = true.
Proof.
  induction 1 as [|m a v s n H L _ IH]; [reflexivity|]. cbn [str_all]. rewrite IH, Bool.andb_true_r. destruct (Ascii.eqb_spec a ";") as [->|]; [|reflexivity]. apply hex_spec in H. discriminate.
Qed.
Lemma entity_decimal a s : a <> "x"%char -> entity (String "#" (String a s)) = match number 10 0 (String a s) with Some n => code_point n | None => None end.
Proof. intros H. destruct a as [[] [] [] [] [] [] [] []]; try reflexivity. exfalso. apply H. reflexivity. Qed.
Lemma reference_ok e c : reference e c -> entity e = Some c /\ str_all (fun a => negb (Ascii.eqb a ";")) e = true.
Proof.
  intros [e' c' I|d n N D L H W|d n N D L H W].
  - cbn in I. repeat (destruct I as [I|I]; [injection I as <- <-; split; reflexivity|]). destruct I.
  - pose proof (number_ok _ _ _ _ D) as E. pose proof (numeral_plain _ _ _ _ D) as P. split; [|exact P]. destruct d as [|a d]; [congruence|]. cbn [append]. rewrite entity_decimal.
    + rewrite E. apply code_point_ok; assumption.
    + intros ->. cbn in E. discriminate.
  - pose proof (number_ok _ _ _ _ D) as E. pose proof (numeral_plain _ _ _ _ D) as P. split; [|exact P]. destruct d as [|a d]; [congruence|]. cbn [append entity String.eqb]. rewrite E. apply code_point_ok; assumption.
Qed.
Lemma read_entity q e : str_all (fun a => negb (Ascii.eqb a ";")) e = true -> forall acc b0 b1 r,
  read_text q (Some acc) b0 b1 (e ++ String ";" r) = match entity (string_rev acc "" ++ e) with Some t => add_before t (read_text q None "000" "000" r) | None => None end.
Proof.
  induction e as [|a e IH]; intros P acc b0 b1 r.
  - cbn [append read_text]. rewrite app_nil. reflexivity.
  - cbn [str_all] in P. apply andb_prop in P as (A & P). apply negb_true_iff in A. cbn [append read_text]. rewrite A, (IH P). cbn [string_rev]. rewrite (rev_acc acc), app_app. reflexivity.
Qed.

(** ** Character data *)
Lemma add_none p : add_before p None = None.
Proof. reflexivity. Qed.
Lemma add_empty r : add_before "" r = r.
Proof. destruct r as [(x & y)|]; reflexivity. Qed.
Definition marks (q : option ascii) : Prop := q = None \/ q = Some "'"%char \/ q = Some quote_mark.
Lemma read_spelled q t s : marks q -> spelled q t s -> forall b0 b1 r, (b1 = cr -> forall u, t <> String lf u) -> (q = None -> ~ occurs "]]>" (String b0 (String b1 t))) ->
  exists c0 c1, read_text q None b0 b1 (t ++ r) = add_before s (read_text q None c0 c1 r).
Proof.
  intros M. assert (ND : forall b0 b1 a t, (q = None -> ~ occurs "]]>" (String b0 (String b1 (String a t)))) ->
    (match q with None => true | Some _ => false end && Ascii.eqb b0 "]" && Ascii.eqb b1 "]" && Ascii.eqb a ">")%bool = false).
  { intros b0 b1 a t0 H. destruct q as [c|]; [reflexivity|]. cbn [andb]. destruct (Ascii.eqb_spec b0 "]") as [->|]; [|reflexivity]. destruct (Ascii.eqb_spec b1 "]") as [->|]; [|reflexivity].
    destruct (Ascii.eqb_spec a ">") as [->|]; [|reflexivity]. exfalso. apply (H eq_refl), (occurs_here "]]>"). }
  induction 1 as [|a t s NL NA NC NQ S IH|e c t s R S IH|t s S IH|t s NL S IH]; intros b0 b1 r C O.
  - exists b0, b1. cbn [append]. rewrite add_empty. reflexivity.
  - destruct (IH b1 a r) as (c0 & c1 & E).
    { intros ->. congruence. }
    { intros Q K. apply (O Q), occurs_cons, K. }
    exists c0, c1. cbn [append read_text]. rewrite (ND _ _ _ _ O), (proj2 (Ascii.eqb_neq _ _) NL), (proj2 (Ascii.eqb_neq _ _) NA).
    replace (match q with Some q0 => Ascii.eqb a q0 | None => false end) with false by (destruct q as [d|]; [symmetry; apply Ascii.eqb_neq; congruence|reflexivity]).
    change ("013"%char) with cr. change ("010"%char) with lf. rewrite (proj2 (Ascii.eqb_neq _ _) NC).
    replace (Ascii.eqb b1 cr && Ascii.eqb a lf)%bool with false.
    2:{ destruct (Ascii.eqb_spec b1 cr) as [->|]; [|reflexivity]. destruct (Ascii.eqb_spec a lf) as [->|]; [|reflexivity]. exfalso. apply (C eq_refl t). reflexivity. }
    rewrite E, add_before_app. reflexivity.
  - destruct (reference_ok e c R) as (E & P). destruct (IH "000" "000" r)%char as (c0 & c1 & F).
    { discriminate. }
    { intros Q K. apply (O Q). apply occurs_nul2 in K; [|discriminate|discriminate]. do 2 apply occurs_cons. apply (occurs_app _ "&"), occurs_app, (occurs_app _ ";"), K. }
    exists c0, c1. rewrite !app_app. cbn [append read_text]. rewrite (ND _ _ _ _ O). change (Ascii.eqb "&" "<") with false. change (Ascii.eqb "&" "&") with true. cbn iota.
    replace (match q with Some q0 => Ascii.eqb "&" q0 | None => false end) with false by (destruct M as [->|[->| ->]]; reflexivity).
    rewrite (read_entity _ e P). cbn [string_rev append]. rewrite E, F, add_before_app. reflexivity.
  - destruct (IH cr lf r) as (c0 & c1 & E).
    { discriminate. }
    { intros Q K. apply (O Q). do 2 apply occurs_cons. exact K. }
    exists c0, c1. cbn [append]. change (String lf s) with (String lf "" ++ s). rewrite <- add_before_app, <- E. clear E. cbn [read_text]. rewrite (ND _ _ _ _ O). unfold cr, lf.
    rewrite Bool.andb_false_r. destruct M as [->|[->| ->]]; cbn -[append read_text]; rewrite ?Bool.andb_false_r; cbn iota; rewrite add_empty; reflexivity.
  - destruct (IH b1 cr r) as (c0 & c1 & E).
    { intros _. exact NL. }
    { intros Q K. apply (O Q). apply occurs_cons. exact K. }
    exists c0, c1. cbn [append]. change (String lf s) with (String lf "" ++ s). rewrite <- add_before_app, <- E. clear E. cbn [read_text]. rewrite (ND _ _ _ _ O). unfold cr, lf.
    destruct M as [->|[->| ->]]; reflexivity.
Qed.
Lemma read_data t s r : spelled None t s -> ~ occurs "]]>" t -> allowed s -> checked_text (read_text None None "000" "000" (t ++ String "<" r)) = Some (s, String "<" r).
Proof.
  intros S O L. destruct (read_spelled None t s (or_introl eq_refl) S "000" "000" (String "<" r))%char as (c0 & c1 & ->).
  { discriminate. }
  { intros _ K. apply O. apply occurs_nul2 in K; [exact K|discriminate|discriminate]. }
  rewrite read_stop_text. cbn [add_before checked_text]. rewrite app_nil. unfold legal. rewrite L, String.eqb_refl. reflexivity.
Qed.
Lemma read_attr q t s r : q = "'"%char \/ q = quote_mark -> spelled (Some q) t s -> allowed s -> read_value (String q (t ++ String q r)) = Some (s, r).
Proof.
  intros Q S L. assert (M : marks (Some q)) by (destruct Q as [->| ->]; unfold marks; auto). cbn [read_value].
  replace (Ascii.eqb q "'" || Ascii.eqb q quote_mark)%bool with true by (destruct Q as [->| ->]; reflexivity). cbn iota.
  destruct (read_spelled (Some q) t s M S "000" "000" (String q r))%char as (c0 & c1 & ->); [discriminate|discriminate|].
  replace (read_text (Some q) None c0 c1 (String q r)) with (Some ("", r)) by (destruct Q as [->| ->]; reflexivity).
  cbn [add_before checked_text]. rewrite app_nil. unfold legal. rewrite L, String.eqb_refl. reflexivity.
Qed.

(** ** CDATA sections *)
Lemma read_lines t s : lines t s -> forall b0 b1 r, (b1 = cr -> forall u, t <> String lf u) -> ~ occurs "]]>" (String b0 (String b1 t)) ->
  exists c0 c1, read_cdata b0 b1 (t ++ r) = add_before s (read_cdata c0 c1 r).
Proof.
  assert (ND : forall b0 b1 a t, ~ occurs "]]>" (String b0 (String b1 (String a t))) -> (Ascii.eqb b0 "]" && Ascii.eqb b1 "]" && Ascii.eqb a ">")%bool = false).
  { intros b0 b1 a t0 H. destruct (Ascii.eqb_spec b0 "]") as [->|]; [|reflexivity]. destruct (Ascii.eqb_spec b1 "]") as [->|]; [|reflexivity].
    destruct (Ascii.eqb_spec a ">") as [->|]; [|reflexivity]. exfalso. apply H, (occurs_here "]]>"). }
  induction 1 as [|a t s NC S IH|t s S IH|t s NL S IH]; intros b0 b1 r C O.
  - exists b0, b1. cbn [append]. rewrite add_empty. reflexivity.
  - destruct (IH b1 a r) as (c0 & c1 & E).
    { intros ->. congruence. }
    { intros K. apply O, occurs_cons, K. }
    exists c0, c1. cbn [append read_cdata]. rewrite (ND _ _ _ _ O). change ("013"%char) with cr. change ("010"%char) with lf. rewrite (proj2 (Ascii.eqb_neq _ _) NC).
    replace (Ascii.eqb b1 cr && Ascii.eqb a lf)%bool with false.
    2:{ destruct (Ascii.eqb_spec b1 cr) as [->|]; [|reflexivity]. destruct (Ascii.eqb_spec a lf) as [->|]; [|reflexivity]. exfalso. apply (C eq_refl t). reflexivity. }
    rewrite E, add_before_app. reflexivity.
  - destruct (IH cr lf r) as (c0 & c1 & E).
    { discriminate. }
    { intros K. apply O. do 2 apply occurs_cons. exact K. }
    exists c0, c1. cbn [append]. change (String lf s) with (String lf "" ++ s). rewrite <- add_before_app, <- E. clear E. cbn [read_cdata]. rewrite (ND _ _ _ _ O). unfold cr, lf.
    rewrite Bool.andb_false_r. cbn -[append read_cdata]. rewrite ?Bool.andb_false_r. cbn iota. rewrite add_empty. reflexivity.
  - destruct (IH b1 cr r) as (c0 & c1 & E).
    { intros _. exact NL. }
    { intros K. apply O. apply occurs_cons. exact K. }
    exists c0, c1. cbn [append]. change (String lf s) with (String lf "" ++ s). rewrite <- add_before_app, <- E. clear E. cbn [read_cdata]. rewrite (ND _ _ _ _ O). reflexivity.
Qed.
Lemma substring_front s : forall x, String.substring 0 (String.length s) (s ++ x) = s.
Proof. induction s as [|a s IH]; intros x; cbn [String.length append]; [destruct x; reflexivity|]. cbn [String.substring]. rewrite IH. reflexivity. Qed.
Lemma read_section t s r : lines t s -> ~ occurs "]]>" t -> allowed s -> checked_text (chop2 (read_cdata "000" "000" (t ++ "]]>" ++ r))) = Some (s, r).
Proof.
  intros S O L. destruct (read_lines t s S "000" "000" ("]]>" ++ r))%char as (c0 & c1 & ->).
  { discriminate. }
  { intros K. apply O. apply occurs_nul2 in K; [exact K|discriminate|discriminate]. }
  assert (E : read_cdata c0 c1 ("]]>" ++ r) = Some ("]]", r)).
  { cbn [append read_cdata]. change (Ascii.eqb "]" ">") with false. change (Ascii.eqb "]" "013") with false. change (Ascii.eqb "]" "010") with false. rewrite !Bool.andb_false_r. reflexivity. }
  rewrite E. cbn [add_before chop2]. rewrite length_app_s. cbn [String.length]. replace (String.length s + 2 - 2)%nat with (String.length s) by lia.
  rewrite substring_front. cbn [checked_text]. unfold legal. rewrite L, String.eqb_refl. reflexivity.
Qed.

(** ** What is skipped *)
Lemma read_comment t : forall b0 b1 r, ~ occurs "--" (String b0 (String b1 (t ++ "-"))) -> skip_comment true b0 b1 (t ++ "-->" ++ r) = Some r.
Proof.
  assert (ND : forall b0 b1 t, ~ occurs "--" (String b0 (String b1 t)) -> (Ascii.eqb b0 "-" && Ascii.eqb b1 "-")%bool = false).
  { intros b0 b1 t0 H. destruct (Ascii.eqb_spec b0 "-") as [->|]; [|reflexivity]. destruct (Ascii.eqb_spec b1 "-") as [->|]; [|reflexivity]. exfalso. apply H, (occurs_here "--"). }
  induction t as [|a t IH]; intros b0 b1 r O.
  - cbn [append skip_comment] in *. rewrite (ND _ _ _ O). rewrite (ND b1 "-"%char ""); [reflexivity|]. intros K. apply O, occurs_cons, K.
  - cbn [append skip_comment] in *. rewrite (ND _ _ _ O). apply (IH b1 a r). intros K. apply O, occurs_cons, K.
Qed.
Lemma read_instr t : forall b0 r, ~ occurs "?>" (String b0 t) -> exists x, read_instruction b0 (t ++ "?>" ++ r) = Some (x, r).
Proof.
  induction t as [|a t IH]; intros b0 r O.
  - cbn [append read_instruction]. change (Ascii.eqb "?" ">") with false. rewrite Bool.andb_false_r. cbn. eauto.
  - cbn [append read_instruction]. replace (Ascii.eqb b0 "?" && Ascii.eqb a ">")%bool with false.
    2:{ destruct (Ascii.eqb_spec b0 "?") as [->|]; [|reflexivity]. destruct (Ascii.eqb_spec a ">") as [->|]; [|reflexivity]. exfalso. apply O, (occurs_here "?>"). }
    destruct (IH a r) as (x & E). { intros K. apply O, occurs_cons, K. } cbn [append] in E. rewrite E. cbn. eauto.
Qed.
Lemma read_directive t : str_all (fun a => negb (existsb (Ascii.eqb a) ["<"; ">"; "'"; quote_mark]%char)) t = true -> forall fuel r, (String.length t < fuel)%nat ->
  skip_directive fuel None 0 (t ++ String ">" r) = Some r.
Proof.
  induction t as [|a t IH]; intros P [|fuel] r F; cbn [String.length] in F; try lia; [reflexivity|]. cbn [str_all] in P. apply andb_prop in P as (A & P). apply negb_true_iff in A.
  cbn [existsb] in A. rewrite !Bool.orb_false_iff in A. destruct A as (A1 & A2 & A3 & A4 & _). cbn [append skip_directive]. rewrite A1, A2, A3, A4. apply (IH P). lia.
Qed.

(** ** White space and names *)
Lemma white_skip w : white w -> forall s, skip_space (w ++ s) = skip_space s.
Proof.
  induction 1 as [|a w I _ IH]; intros s; [reflexivity|]. rewrite <- (IH s). unfold skip_space. cbn [append span]. replace (space_byte a) with true.
  - destruct (span space_byte (w ++ s)). reflexivity.
  - cbn in I. repeat (destruct I as [<-|I]; [reflexivity|]). destruct I.
Qed.
Definition halts (c : ascii) : bool := negb (name_byte c) && one c.
Lemma white_halts a w : white (String a w) -> halts a = true.
Proof. intros H. inversion H as [|x y I]; subst. cbn in I. repeat (destruct I as [<-|I]; [reflexivity|]). destruct I. Qed.
Lemma letter_facts a : letter a = true -> name_start a = true /\ name_byte a = true /\ Ascii.eqb a ":" = false /\ space_byte a = false.
Proof. destruct a as [[] [] [] [] [] [] [] []]; intros H; try discriminate H; repeat split; reflexivity. Qed.
Lemma letter_or_digit_facts a : letter_or_digit a = true -> name_byte a = true /\ Ascii.eqb a ":" = false.
Proof. destruct a as [[] [] [] [] [] [] [] []]; intros H; try discriminate H; repeat split; reflexivity. Qed.
Lemma simple_ok n : simple_name n -> name_ok n = true.
Proof.
  intros (a & s & -> & A & S). destruct (letter_facts a A) as (A1 & A2 & A3 & _). unfold name_ok. cbn [is_name str_all]. unfold name_start in A1. rewrite A1, A3.
  rewrite (str_all_weaken letter_or_digit name_byte s (fun b H => proj1 (letter_or_digit_facts b H)) S).
  rewrite (str_all_weaken letter_or_digit (fun a => negb (Ascii.eqb a ":")) s); [reflexivity| |exact S]. intros b H. rewrite (proj2 (letter_or_digit_facts b H)). reflexivity.
Qed.
Lemma str_all_app p a b : str_all p (a ++ b) = (str_all p a && str_all p b)%bool.
Proof. induction a as [|x a IH]; [reflexivity|]. cbn. rewrite IH, Bool.andb_assoc. reflexivity. Qed.
Lemma cut_colon p l : str_all (fun a => negb (Ascii.eqb a ":")) p = true -> cut (p ++ String ":" l) = Some (p, l).
Proof. induction p as [|a p IH]; [reflexivity|]. cbn [append cut str_all]. intros H. apply andb_prop in H as (A & H). apply negb_true_iff in A. rewrite A, (IH H). reflexivity. Qed.
Lemma written_is_name n p : written_name n p -> is_name n = true /\ split_name n = Some p.
Proof.
  intros [l H|q l H G].
  - apply simple_ok in H. unfold name_ok in H. apply andb_prop in H as (A & B). split; [exact A|]. unfold split_name. rewrite (cut_none l B). reflexivity.
  - assert (NE : q <> "" /\ l <> "") by (destruct H as (a & s & -> & _); destruct G as (b & t & -> & _); split; discriminate).
    apply simple_ok in H, G. unfold name_ok in H, G. apply andb_prop in H as (A & B), G as (C & D). split.
    + destruct q as [|a q]; [discriminate|]. cbn [append is_name] in *. apply andb_prop in A as (A1 & A2). rewrite A1, str_all_app, A2. cbn [append str_all andb]. apply name_bytes in C. rewrite C. reflexivity.
    + unfold split_name. cbn [append]. rewrite (cut_colon q l B), (cut_none l D), !(proj2 (String.eqb_neq _ _)) by tauto. reflexivity.
Qed.
Lemma read_simple n c r : is_name n = true -> halts c = true -> read_name (n ++ String c r) = Some (n, String c r).
Proof.
  intros N H. unfold read_name. rewrite span_stop; [rewrite N; reflexivity| |].
  - apply (str_all_weaken name_byte); [intros a ->; reflexivity|apply name_bytes, N].
  - unfold halts in H. apply andb_prop in H as (A & B). apply negb_true_iff in A. rewrite A, B. reflexivity.
Qed.
Lemma read_written n p c r : written_name n p -> halts c = true -> read_pname (n ++ String c r) = Some (p, String c r).
Proof. intros W H. destruct (written_is_name n p W) as (N & S). unfold read_pname. rewrite (read_simple n c r N H), S. reflexivity. Qed.
Lemma written_head n p : written_name n p -> exists a s, n = String a s /\ letter a = true.
Proof. intros [l (a & s & -> & A & _)|q l (a & s & -> & A & _) _]; cbn [append]; eauto. Qed.
Definition halting (s : string) : Prop := exists c r, s = String c r /\ halts c = true.
Lemma white_before w s : white w -> halting s -> halting (w ++ s).
Proof. destruct w as [|a w]; intros W H; [exact H|]. exists a, (w ++ s). split; [reflexivity|apply (white_halts a w W)]. Qed.
Lemma read_halting n p s : written_name n p -> halting s -> read_pname (n ++ s) = Some (p, s).
Proof. intros W (c & r & -> & H). apply (read_written n p c r W H). Qed.

(** ** Tags *)
Lemma letter_space a s : letter a = true -> skip_space (String a s) = String a s.
Proof. intros H. destruct (letter_facts a H) as (_ & _ & _ & S). unfold skip_space. cbn [span]. rewrite S. reflexivity. Qed.
Lemma read_attributes t l : attributes t l -> forall fuel tail e r, (length l < fuel)%nat -> halting tail -> (forall f, read_attrs (S f) tail = Some ([], e, r)) ->
  read_attrs fuel (t ++ tail) = Some (l, e, r).
Proof.
  induction 1 as [|w a p t l W NE A T IH]; intros [|fuel] tail e r F H E; cbn [length] in F; try lia; [apply E|]. rewrite !app_app, attrs_cases, (white_skip w W).
  destruct A as [n q v x k u s N V X K S L]. destruct (written_head n q N) as (c & n' & En & Lc). rewrite !app_app. rewrite En at 1. cbn [append]. rewrite (letter_space c _ Lc).
  replace (Ascii.eqb c ">") with false by (symmetry; apply Ascii.eqb_neq; intros ->; discriminate). replace (Ascii.eqb c "/") with false by (symmetry; apply Ascii.eqb_neq; intros ->; discriminate).
  change (String c (n' ++ ?y)) with (String c n' ++ y). rewrite <- En. unfold attr_rest. rewrite (read_halting n q); [|exact N|].
  2:{ apply white_before; [exact V|]. eexists _, _. split; reflexivity. }
  rewrite (white_skip v V). cbn [append]. change (skip_space (String "=" ?y)) with (String "=" y). change (Ascii.eqb "=" "=") with true. cbn iota. rewrite ?app_app, (white_skip x X). cbn [append].
  assert (Q : forall y, skip_space (String k y) = String k y) by (intros y; destruct K as [->| ->]; reflexivity). rewrite Q, ?app_app. cbn [append]. rewrite (read_attr k u s _ K S L).
  rewrite (IH fuel tail e r); [reflexivity|lia|exact H|exact E].
Qed.
Lemma attributes_length t l : attributes t l -> (length l <= String.length t)%nat.
Proof. induction 1 as [|w a p t l W NE A T IH]; [apply le_n|]. rewrite !length_app_s. destruct w as [|c w]; [congruence|]. cbn [length String.length]. lia. Qed.
Lemma attributes_before t l s : attributes t l -> halting s -> halting (t ++ s).
Proof. intros [|w a p t' l' W NE A T] H; [exact H|]. destruct w as [|c w]; [congruence|]. exists c, ((w ++ a ++ t') ++ s). split; [reflexivity|]. apply (white_halts c w W). Qed.
Lemma tag_start n p t l tail e r : element_name n p -> attributes t l -> halting tail -> (forall f, read_attrs (S f) tail = Some ([], e, r)) ->
  next_token ("<" ++ n ++ t ++ tail) = Some (TStart p l e, r).
Proof.
  intros (N & _) A H E. destruct (written_head n p N) as (c & n' & En & Lc). cbn [append]. rewrite En at 1. cbn [append]. rewrite (token_name c _ (proj1 (letter_facts c Lc))).
  change (String c (n' ++ ?y)) with (String c n' ++ y). rewrite <- En. rewrite (read_halting n p _ N (attributes_before t l tail A H)).
  rewrite (read_attributes t l A _ tail e r); [reflexivity| |exact H|exact E]. rewrite length_app_s. pose proof (attributes_length t l A). lia.
Qed.
Lemma tag_open n p t l w r : element_name n p -> attributes t l -> white w -> next_token ("<" ++ n ++ t ++ w ++ ">" ++ r) = Some (TStart p l false, r).
Proof.
  intros N A W. apply (tag_start n p t l); [exact N|exact A| |].
  - apply white_before; [exact W|]. eexists _, _. split; reflexivity.
  - intros f. rewrite attrs_cases, (white_skip w W). reflexivity.
Qed.
Lemma tag_empty n p t l w r : element_name n p -> attributes t l -> white w -> next_token ("<" ++ n ++ t ++ w ++ "/>" ++ r) = Some (TStart p l true, r).
Proof.
  intros N A W. apply (tag_start n p t l); [exact N|exact A| |].
  - apply white_before; [exact W|]. eexists _, _. split; reflexivity.
  - intros f. rewrite attrs_cases, (white_skip w W). reflexivity.
Qed.
Lemma tag_close n p w r : element_name n p -> white w -> next_token ("</" ++ n ++ w ++ ">" ++ r) = Some (TEnd p, r).
Proof.
  intros (N & _) W. cbn [append]. rewrite end_cases. unfold end_tag. rewrite (read_halting n p); [|exact N|].
  - rewrite (white_skip w W). reflexivity.
  - apply white_before; [exact W|]. eexists _, _. split; reflexivity.
Qed.
Lemma token_skipped m r : skipped m -> next_token (m ++ r) = Some (TSkip, r).
Proof.
  intros [t O|n t N X T O|t I|t H P].
  - rewrite !app_app. cbn [append]. rewrite bang_cases. unfold bang. cbn [Ascii.eqb Bool.eqb]. change (String "-" (String "-" (String ">" r))) with ("-->" ++ r). rewrite read_comment; [reflexivity|].
    intros K. apply O. apply occurs_nul2 in K; [exact K|discriminate|discriminate].
  - rewrite !app_app. cbn [append]. rewrite token_cases. cbn [Ascii.eqb Bool.eqb]. unfold pi.
    assert (Ha : halting (t ++ String "?" (String ">" r))).
    { destruct T as [->|T]; [eexists _, _; split; reflexivity|]. destruct t as [|a t]; [destruct T|]. exists a, (t ++ String "?" (String ">" r)). split; [reflexivity|apply (white_halts a "" T)]. }
    destruct Ha as (c & x & E & Hc). rewrite E, (read_simple n c x); [|apply (simple_ok n) in N; unfold name_ok in N; apply andb_prop in N as (N & _); exact N|exact Hc]. rewrite <- E.
    assert (Sk : exists u v, t = u ++ v /\ skip_space (t ++ String "?" (String ">" r)) = v ++ String "?" (String ">" r)).
    { clear. induction t as [|a t IH]; [exists "", ""; split; reflexivity|]. unfold skip_space. cbn [append span]. destruct (space_byte a).
      - destruct IH as (u & v & -> & E). exists (String a u), v. split; [reflexivity|]. rewrite <- E. unfold skip_space. destruct (span _ _). reflexivity.
      - exists "", (String a t). split; reflexivity. }
    destruct Sk as (u & v & Et & ->). destruct (read_instr v "000"%char r) as (y & Ey).
    { intros K. apply O. rewrite Et. apply occurs_app. destruct (occurs_nul "?>" v) as [F|F]; [discriminate|exact K|discriminate|exact F]. }
    cbn [append] in Ey. rewrite Ey. unfold instruction_ok. rewrite (proj2 (String.eqb_neq _ _) X). reflexivity.
  - cbn in I. repeat (destruct I as [<-|I]; [reflexivity|]). destruct I.
  - destruct t as [|a t]; [destruct H|]. cbn [starts str_all] in H, P. apply andb_prop in P as (_ & P). rewrite !app_app. cbn [append]. rewrite bang_cases. unfold bang.
    replace (Ascii.eqb a "-") with false by (symmetry; apply Ascii.eqb_neq; intros ->; discriminate). replace (Ascii.eqb a "[") with false by (symmetry; apply Ascii.eqb_neq; intros ->; discriminate).
    rewrite read_directive; [reflexivity|exact P|]. rewrite length_app_s. lia.
Qed.

(** ** Name spaces *)
Definition resolves (ns : scope) (l : spaces_in_force) : Prop := forall p, ns p = match assoc p l with Some u => u | None => p end.
Lemma resolves_nothing : resolves no_scope [].
Proof. intros p. reflexivity. Qed.
Lemma resolves_declare a : forall ns l, resolves ns l -> resolves (within ns a) (declare a l).
Proof.
  induction a as [|((sp & n) & v) a IH]; intros ns l R; [exact R|]. cbn [within fold_left declare]. apply IH. intros p. unfold declares. cbn [fst snd].
  destruct (String.eqb_spec sp "xmlns") as [->|N].
  - cbn [andb assoc]. destruct (String.eqb_spec n p) as [->|M].
    + reflexivity.
    + apply R.
  - cbn [andb]. destruct (String.eqb sp "" && String.eqb n "xmlns")%bool; cbn [andb]; [|apply R]. cbn [assoc]. rewrite (String.eqb_sym "" p). destruct (String.eqb p ""); [reflexivity|apply R].
Qed.
Lemma named_space ns l n p : resolves ns l -> element_name n p -> element_space l p = ns (fst p).
Proof.
  intros R (_ & N & M). unfold element_space. destruct (String.eqb_spec (fst p) "xmlns") as [E|_]; [exfalso; apply N; left; congruence|].
  destruct (String.eqb_spec (fst p) "") as [E|_]; [destruct (String.eqb_spec (snd p) "xmlns") as [F|_]|]; cbn [andb].
  - exfalso. apply M. destruct p as (x & y). cbn in *. congruence.
  - rewrite E. cbn [String.eqb]. symmetry. apply R.
  - destruct (String.eqb_spec (fst p) "xml") as [E|_]; [exfalso; apply N; right; left; congruence|]. symmetry. apply R.
Qed.
Lemma closed_element ns l n p a ks : resolves ns l -> element_name n p ->
  closed (mkFrame p (declare a l) a ks) = XElem (within ns a (fst p)) (snd p) (local_only a) (rev ks).
Proof. intros R N. unfold closed. cbn [fr_ns fr_name fr_attrs fr_kids]. rewrite (named_space (within ns a) (declare a l) n p (resolves_declare a ns l R) N). reflexivity. Qed.

(** ** Elements *)
Lemma skipped_length m : skipped m -> (1 <= String.length m)%nat.
Proof. intros [t|n t|t|t]; cbn; lia. Qed.
Lemma step_skip m r st : skipped m -> steps (m ++ r) st r st.
Proof.
  intros S. exists 1%nat. split; [rewrite length_app_s; pose proof (skipped_length m S); lia|]. intros fuel. cbn [Nat.add build]. rewrite (token_skipped m r S). reflexivity.
Qed.
Lemma spelled_head q t s : spelled q t s -> t = "" \/ exists a u, t = String a u /\ a <> "<"%char.
Proof. intros [|a t' s' N| | |]; [left; reflexivity|right..]; cbn [append]; eexists _, _; (split; [reflexivity|]); [exact N|discriminate..]. Qed.
Lemma token_data t s r : t <> "" -> spelled None t s -> ~ occurs "]]>" t -> allowed s -> next_token (t ++ String "<" r) = Some (TText s, String "<" r).
Proof.
  intros NE S O L. destruct (spelled_head None t s S) as [->|(a & u & -> & A)]; [congruence|]. cbn [append]. rewrite (token_other a _ A). change (String a (u ++ ?x)) with (String a u ++ x).
  rewrite (read_data _ s r S O L). reflexivity.
Qed.
Lemma token_section t s r : lines t s -> ~ occurs "]]>" t -> allowed s -> next_token ("<![CDATA[" ++ t ++ "]]>" ++ r) = Some (TText s, r).
Proof.
  intros S O L. cbn [append]. rewrite bang_cases. unfold bang. change (Ascii.eqb "[" "-") with false. change (Ascii.eqb "[" "[") with true. cbn iota.
  change (Base.strip_prefix "CDATA[" (String "C" (String "D" (String "A" (String "T" (String "A" (String "[" ?x))))))) with (Some x). cbn iota.
  change (String "]" (String "]" (String ">" r))) with ("]]>" ++ r). rewrite (read_section t s r S O L). reflexivity.
Qed.
Scheme xelement_mut := Minimality for xelement Sort Prop with xcontent_mut := Minimality for xcontent Sort Prop.
Combined Scheme xelement_xcontent from xelement_mut, xcontent_mut.
Definition inside (n t w v : string) : string -> string := fun s => "<" ++ n ++ t ++ w ++ ">" ++ s ++ "</" ++ n ++ v ++ ">".
Lemma step_open n p t l w r st : element_name n p -> attributes t l -> white w ->
  steps ("<" ++ n ++ t ++ w ++ ">" ++ r) st r (mkFrame p (declare l (match st with [] => [] | g :: _ => fr_ns g end)) l [] :: st).
Proof.
  intros N A W. exists 1%nat. split; [cbn [append String.length]; rewrite !length_app_s; cbn [append String.length]; lia|]. intros fuel. cbn [Nat.add build]. rewrite (tag_open n p t l w r N A W). reflexivity.
Qed.
Lemma reads : (forall ns s x, xelement ns s x -> forall f st r, resolves ns (fr_ns f) -> steps (s ++ r) (f :: st) r (add_kid x f :: st)) /\
  (forall ns s ks, xcontent ns s ks -> forall f st r, resolves ns (fr_ns f) -> steps (s ++ String "<" r) (f :: st) (String "<" r) (add_kids ks f :: st)).
Proof.
  apply xelement_xcontent.
  - intros ns n p t l w N A W f st r R. exists 1%nat. split; [rewrite length_app_s; cbn; lia|]. intros fuel. rewrite !app_app. cbn [Nat.add build]. rewrite (tag_empty n p t l w r N A W).
    rewrite (closed_element ns (fr_ns f) n p l [] R N). reflexivity.
  - intros ns n p t l w s ks v N A W _ IH V f st r R. rewrite !app_app. eapply steps_trans; [apply (step_open n p t l w _ (f :: st) N A W)|]. cbn [append].
    eapply steps_trans; [apply IH; cbn [fr_ns]; apply resolves_declare, R|]. exists 1%nat. split; [cbn [String.length]; rewrite !length_app_s; cbn; lia|]. intros fuel. cbn [Nat.add build].
    change (String "<" (String "/" (n ++ v ++ String ">" r))) with ("</" ++ n ++ v ++ ">" ++ r). rewrite (tag_close n p v r N V). unfold pname_eqb, add_kids. cbn [fr_name fr_ns fr_attrs fr_kids].
    rewrite !String.eqb_refl, app_nil_r. cbn [andb]. rewrite (closed_element ns (fr_ns f) n p l _ R N), rev_involutive. reflexivity.
  - intros ns f st r R. cbn [append]. rewrite add_kids_nil. apply steps_refl.
  - intros ns t s r ks NE S O L M _ IH f st r' R. rewrite app_app. assert (E : exists u, r ++ String "<" r' = String "<" u) by (destruct M as [->|(u & ->)]; cbn; eauto).
    destruct E as (u & E). eapply steps_trans.
    + rewrite E. exists 1%nat. split; [|intros fuel; cbn [Nat.add build]; rewrite (token_data t s u NE S O L); reflexivity]. rewrite length_app_s. destruct t; [congruence|]. cbn. lia.
    + rewrite <- E. rewrite add_kids_one. eapply steps_trans; [apply IH; exact R|]. rewrite add_kids_app. apply steps_refl.
  - intros ns t s r ks S O L _ IH f st r' R. rewrite !app_app. eapply steps_trans.
    + exists 1%nat. split; [|intros fuel; cbn [Nat.add build]; rewrite (token_section t s _ S O L); reflexivity]. rewrite !length_app_s. cbn. rewrite ?length_app_s. lia.
    + rewrite add_kids_one. eapply steps_trans; [apply IH; exact R|]. rewrite add_kids_app. apply steps_refl.
  - intros ns m r ks S _ IH f st r' R. rewrite app_app. eapply steps_trans; [apply (step_skip m _ _ S)|]. apply IH, R.
  - intros ns e x r ks _ IHe _ IH f st r' R. rewrite app_app. eapply steps_trans; [apply IHe, R|]. rewrite add_kids_one. eapply steps_trans; [apply IH; exact R|]. rewrite add_kids_app. apply steps_refl.
Qed.

(** ** Documents *)
Lemma white_spelled w : white w -> exists s, spelled None w s /\ white s /\ ~ In cr (list_ascii_of_string s).
Proof.
  pattern w. apply JsonGrammarProofs.strings. clear w. intros w IH W. destruct W as [|a w I W]; [exists ""; repeat split; [apply sp_end|apply wh_end|intros []]|].
  destruct (Ascii.eqb_spec a cr) as [->|N].
  - destruct W as [|b w J W].
    + exists (String lf ""). repeat split; [apply sp_cr; [discriminate|apply sp_end]|apply wh_more; [cbn; auto|apply wh_end]|]. cbn. intros [K|[]]. discriminate.
    + destruct (Ascii.eqb_spec b lf) as [->|M].
      * destruct (IH w) as (s & S & Ws & C); [cbn; lia|exact W|]. exists (String lf s). repeat split; [apply sp_crlf, S|apply wh_more; [cbn; auto|exact Ws]|]. cbn. intros [K|K]; [discriminate|exact (C K)].
      * destruct (IH (String b w)) as (s & S & Ws & C); [cbn; lia|apply wh_more; assumption|]. exists (String lf s). repeat split; [apply sp_cr; [congruence|exact S]|apply wh_more; [cbn; auto|exact Ws]|]. cbn. intros [K|K]; [discriminate|exact (C K)].
  - destruct (IH w) as (s & S & Ws & C); [cbn; lia|exact W|]. exists (String a s). repeat split; [|apply wh_more; assumption|cbn; intros [K|K]; [congruence|exact (C K)]].
    apply sp_byte; [| |exact N|discriminate|exact S]; intros ->; cbn in I; intuition discriminate.
Qed.
Lemma white_allowed s : white s -> allowed s.
Proof.
  unfold allowed. induction 1 as [|a s I _ IH]; [reflexivity|]. cbn in I. repeat (destruct I as [<-|I]; [cbn [xml_clean]; change (one _) with true; cbn iota; change (xml_byte _) with true; cbn iota; rewrite IH; reflexivity|]). destruct I.
Qed.
Lemma white_plain w : white w -> ~ occurs "]]>" w.
Proof.
  intros W (a & b & ->). induction a as [|c a IH]; cbn [append] in W; inversion W as [|x y I W']; subst; [cbn in I; intuition discriminate|apply IH, W'].
Qed.
Lemma read_prolog p : prolog p -> forall r, steps (p ++ String "<" r) [] (String "<" r) [].
Proof.
  induction 1 as [|w s W NE M P IH|m s S P IH]; intros r.
  - apply steps_refl.
  - rewrite app_app. assert (E : exists u, s ++ String "<" r = String "<" u) by (destruct M as [->|(u & ->)]; cbn; eauto). destruct E as (u & E). eapply steps_trans; [|apply IH]. rewrite E.
    destruct (white_spelled w W) as (t & T & Wt & _). exists 1%nat. split; [rewrite length_app_s; destruct w; [congruence|]; cbn; lia|]. intros fuel. cbn [Nat.add build].
    rewrite (token_data w t u NE T (white_plain w W) (white_allowed t Wt)). reflexivity.
  - rewrite app_app. eapply steps_trans; [apply (step_skip m _ _ S)|apply IH].
Qed.
Lemma steps_build s st r st' x u : steps s st r st' -> (forall fuel, build (S fuel) r st' = Some (x, u)) -> forall fuel, (String.length s <= fuel)%nat -> (1 <= String.length r)%nat -> build fuel s st = Some (x, u).
Proof.
  intros (n & Ln & B) E fuel F R. replace fuel with (n + S (fuel - n - 1))%nat by lia. rewrite B. apply E.
Qed.
Theorem document_parse s x : xdocument s x -> xml_parse s = Some x.
Proof.
  intros [p e y r P X]. unfold xml_parse. assert (K : build (S (String.length (p ++ e ++ r))) (p ++ e ++ r) [] = Some (y, r)); [|rewrite K; reflexivity].
  remember no_scope as ns eqn:Hns. destruct X as [ns n q t l w N A W|ns n q t l w z ks v N A W C V]; subst ns; rewrite !app_app.
  - eapply steps_build; [cbn [append]; apply (read_prolog p P)| | |cbn; lia].
    + intros fuel. change (String "<" (n ++ t ++ w ++ String "/" (String ">" r))) with ("<" ++ n ++ t ++ w ++ "/>" ++ r). cbn [build]. rewrite (tag_empty n q t l w r N A W).
      rewrite (closed_element no_scope [] n q l [] resolves_nothing N). reflexivity.
    + apply Nat.le_succ_diag_r.
  - eapply steps_build; [| |apply Nat.le_succ_diag_r|].
    + eapply steps_trans; [cbn [append]; apply (read_prolog p P)|]. change (String "<" (n ++ ?z)) with ("<" ++ n ++ z).
      eapply steps_trans; [apply (step_open n q t l w _ [] N A W)|]. cbn [append]. apply (proj2 reads _ _ _ C). apply resolves_declare, resolves_nothing.
    + intros fuel. change (String "<" (String "/" (n ++ v ++ String ">" r))) with ("</" ++ n ++ v ++ ">" ++ r). cbn [build]. rewrite (tag_close n q v r N V). unfold pname_eqb, add_kids.
      cbn [fr_name fr_ns fr_attrs fr_kids]. rewrite !String.eqb_refl, app_nil_r. cbn [andb]. rewrite (closed_element no_scope [] n q l _ resolves_nothing N), rev_involutive. reflexivity.
    + cbn. lia.
Qed.

(** ** What is written belongs to the grammar *)
Lemma escaped_spelled q s : marks q -> spelled q (xml_escape s) s.
Proof.
  intros M. induction s as [|a s IH]; [apply sp_end|]. cbn [xml_escape]. destruct (special a) eqn:A.
  - pose proof (escape_special a A) as I. remember (xml_escape_byte a) as e eqn:He. clear He A.
    assert (Q : exists r, e = "&" ++ r ++ ";" /\ reference r (String a "")).
    { cbn in I. repeat (destruct I as [I|I]; [injection I as <- <-|]); [..|destruct I].
      - exists "#34". split; [reflexivity|]. change (String "034" "") with (rune_text 34). apply (re_decimal "34" 34); try discriminate; try (intros K; revert K; unfold high_half, low_half; lia). 
        apply nu_more with (d := 3%N); [apply hex_spec; reflexivity|reflexivity|]. apply nu_more with (d := 4%N); [apply hex_spec; reflexivity|reflexivity|]. apply nu_end.
      - exists "#39". split; [reflexivity|]. change "'" with (rune_text 39). apply (re_decimal "39" 39); try discriminate; try (intros K; revert K; unfold high_half, low_half; lia). 
        apply nu_more with (d := 3%N); [apply hex_spec; reflexivity|reflexivity|]. apply nu_more with (d := 9%N); [apply hex_spec; reflexivity|reflexivity|]. apply nu_end.
      - exists "amp". split; [reflexivity|]. apply re_name. cbn. auto.
      - exists "lt". split; [reflexivity|]. apply re_name. cbn. auto.
      - exists "gt". split; [reflexivity|]. apply re_name. cbn. auto.
      - exists "#x9". split; [reflexivity|]. change (String "009" "") with (rune_text 9). apply (re_hex "9" 9); try discriminate; try (intros K; revert K; unfold high_half, low_half; lia). 
        apply nu_more with (d := 9%N); [apply hex_spec; reflexivity|reflexivity|]. apply nu_end.
      - exists "#xA". split; [reflexivity|]. change (String "010" "") with (rune_text 10). apply (re_hex "A" 10); try discriminate; try (intros K; revert K; unfold high_half, low_half; lia). 
        apply nu_more with (d := 10%N); [apply hex_spec; reflexivity|reflexivity|]. apply nu_end.
      - exists "#xD". split; [reflexivity|]. change (String "013" "") with (rune_text 13). apply (re_hex "D" 13); try discriminate; try (intros K; revert K; unfold high_half, low_half; lia). 
        apply nu_more with (d := 13%N); [apply hex_spec; reflexivity|reflexivity|]. apply nu_end. }
    destruct Q as (r & -> & R). rewrite !app_app. change (String a s) with (String a "" ++ s). apply sp_reference; assumption.
  - rewrite (escape_plain a A). cbn [append]. apply sp_byte; [| | | |exact IH].
    1-3: intros ->; discriminate. intros ->. destruct M as [K|[K|K]]; [discriminate|injection K as ->; discriminate..].
Qed.
Lemma escaped_plain s : ~ occurs "]]>" (xml_escape s).
Proof.
  assert (G : str_all (fun a => negb (Ascii.eqb a ">")) (xml_escape s) = true).
  { induction s as [|a s IH]; [reflexivity|]. cbn [xml_escape]. rewrite str_all_app, IH, Bool.andb_true_r. destruct (special a) eqn:A.
    - apply escape_special in A. remember (xml_escape_byte a) as e. cbn in A. repeat (destruct A as [A|A]; [injection A as <- <-; reflexivity|]). destruct A.
    - rewrite (escape_plain a A). cbn [str_all]. destruct (Ascii.eqb_spec a ">") as [->|]; [discriminate|reflexivity]. }
  intros (a & b & E). rewrite E, !str_all_app in G. cbn in G. rewrite Bool.andb_false_r in G. discriminate.
Qed.
Lemma name_ok_simple n : name_ok n = true -> simple_name n.
Proof.
  unfold name_ok. intros H. apply andb_prop in H as (A & B). destruct n as [|a n]; [discriminate|]. cbn [is_name str_all] in A, B. apply andb_prop in A as (A1 & A2), B as (B1 & B2).
  exists a, n. split; [reflexivity|]. split; [destruct a as [[] [] [] [] [] [] [] []]; try discriminate A1; try discriminate B1; reflexivity|].
  clear A1 B1. induction n as [|c n IH]; [reflexivity|]. cbn [str_all] in *. apply andb_prop in A2 as (A1 & A2), B2 as (B1 & B2). rewrite (IH A2 B2), Bool.andb_true_r.
  destruct c as [[] [] [] [] [] [] [] []]; try discriminate A1; try discriminate B1; reflexivity.
Qed.
Lemma legal_allowed s : legal s = true -> allowed s.
Proof. apply String.eqb_eq. Qed.
Lemma written_attributes a : Forall attr_ok a -> attributes (concat_map attr_text a) (map bare a).
Proof.
  induction 1 as [|(n & v) a (N & L) _ IH]; [apply as_end|]. cbn [fst snd] in N, L. cbn [concat_map map]. unfold attr_text at 1. cbn [fst snd].
  change ((" " ++ n ++ "=" ++ String quote_mark (xml_escape v ++ String quote_mark "")) ++ concat_map attr_text a) with
    (" " ++ (n ++ "" ++ "=" ++ "" ++ String quote_mark (xml_escape v ++ String quote_mark "")) ++ concat_map attr_text a).
  apply as_more; [apply wh_more; [cbn; auto|apply wh_end]|discriminate| |exact IH].
  apply at_one; [apply wn_local, name_ok_simple, N|apply wh_end|apply wh_end|right; reflexivity|apply escaped_spelled; unfold marks; auto|apply legal_allowed, L].
Qed.
Lemma within_bare a : forall ns, within ns (map bare a) "" = declared a (ns "").
Proof.
  induction a as [|(n & v) a IH]; intros ns; [reflexivity|]. cbn [map within fold_left declared]. etransitivity; [apply IH|]. f_equal. unfold declares, bare. cbn [fst snd String.eqb andb].
  rewrite Bool.andb_true_r. reflexivity.
Qed.
Lemma line_spelled n : spelled None (line n) (line n).
Proof.
  unfold line. apply sp_byte; try discriminate. induction n as [|n IH]; [apply sp_end|]. cbn [blanks append]. apply sp_byte; try discriminate. apply sp_byte; try discriminate. exact IH.
Qed.
Lemma line_white n : white (line n).
Proof. unfold line. apply wh_more; [cbn; auto|]. induction n as [|n IH]; [apply wh_end|]. cbn [blanks append]. apply wh_more; [cbn; auto|]. apply wh_more; [cbn; auto|exact IH]. Qed.
Definition is_written (pretty : bool) (x : xml) : Prop := is_elem x = true -> proper x -> forall depth ns, xelement ns (xml_text pretty depth x) (resolve (ns "") (laid_out pretty depth x)).
Lemma content_line ns n r ks : markup r -> xcontent ns r ks -> xcontent ns (line n ++ r) (newline n :: ks).
Proof. intros M X. apply xc_text; [discriminate|apply line_spelled|apply white_plain, line_white|apply legal_allowed, legal_line|exact M|exact X]. Qed.
Lemma written_compact depth ks ns : Forall (is_written false) ks -> forallb is_elem ks = true -> list_all proper ks ->
  xcontent ns (concat_map (xml_text false depth) ks) (map (resolve (ns "")) ks).
Proof.
  induction ks as [|k ks IH]; intros F E P; [apply xc_end|]. inversion F as [|? ? Fk Fs]; subst. cbn [forallb] in E. apply andb_prop in E as (Ek & Es). destruct P as (Pk & Ps).
  cbn [concat_map map]. apply xc_element; [exact (Fk Ek Pk depth ns)|exact (IH Fs Es Ps)].
Qed.
Lemma written_pretty depth ks ns : Forall (is_written true) ks -> forallb is_elem ks = true -> list_all proper ks ->
  xcontent ns (concat_map (fun k => match k with XText s => xml_escape s | _ => line (S depth) ++ xml_text true (S depth) k end) ks ++ line depth)
    (map (resolve (ns "")) (flat_map (laid depth) ks ++ [newline depth])).
Proof.
  induction ks as [|k ks IH]; intros F E P.
  - cbn. rewrite <- (app_nil (line depth)). apply content_line; [left; reflexivity|apply xc_end].
  - inversion F as [|? ? Fk Fs]; subst. cbn [forallb] in E. apply andb_prop in E as (Ek & Es). destruct P as (Pk & Ps). cbn [concat_map flat_map].
    destruct k as [s|sp l a kk]; [discriminate|]. remember (XElem sp l a kk) as k eqn:Hk.
    replace (match k with XText s => xml_escape s | _ => line (S depth) ++ xml_text true (S depth) k end) with (line (S depth) ++ xml_text true (S depth) k) by (rewrite Hk; reflexivity).
    replace (laid depth k) with [newline (S depth); indent (S depth) k] by (rewrite Hk; reflexivity).
    destruct (text_head true (S depth) k Ek) as (t & T). rewrite !app_app. cbn [app map resolve]. apply content_line; [right; rewrite T; eexists; reflexivity|].
    apply xc_element; [exact (Fk Ek Pk (S depth) ns)|]. exact (IH Fs Es Ps).
Qed.
Lemma all_written pretty x : is_written pretty x.
Proof.
  induction x as [s|sp l a ks IH] using xml_induction; intros E P depth ns; [discriminate|]. pose proof P as (N & X & A & K & Q).
  rewrite (laid_shape pretty depth sp l a ks). cbn [xml_text resolve]. unfold start_text, end_text. rewrite <- (local_bare a) at 3. rewrite <- (within_bare a ns).
  rewrite !app_app. change ((("<" ++ ?u) ++ ?v)) with ("<" ++ u ++ v).
  match goal with |- xelement _ ?s _ => match s with context [if ?c then ?u else ?v] => remember (if c then u else v) as body eqn:Hb end end.
  replace ("<" ++ l ++ concat_map attr_text a ++ ">" ++ body ++ "</" ++ l ++ ">") with ("<" ++ l ++ concat_map attr_text a ++ "" ++ ">" ++ body ++ "</" ++ l ++ "" ++ ">") by reflexivity.
  apply (xe_full ns l ("", l) (concat_map attr_text a) (map bare a) "" body _ "").
  - split; [apply wn_local, name_ok_simple, N|]. cbn. split; [intuition discriminate|congruence].
  - apply written_attributes, A.
  - apply wh_end.
  - subst body. destruct K as [K|(s & ->)].
    + destruct pretty.
      * cbn [andb]. unfold laid_out. rewrite indent_laid, (elem_texts ks K). destruct ks as [|k ks]; [apply xc_end|]. cbn [negb]. apply (written_pretty depth (k :: ks) _ IH K Q).
      * cbn [andb]. unfold laid_out. apply (written_compact depth ks _ IH K Q).
    + cbn [existsb is_elem orb]. rewrite Bool.andb_false_r. destruct Q as ((NE & L) & _). cbn [concat_map xml_text].
      replace (match laid_out pretty depth (XElem sp l a [XText s]) with XElem _ _ _ kk => kk | XText _ => [] end) with [XText s] by (destruct pretty; reflexivity).
      cbn [map resolve]. apply xc_text; [|apply escaped_spelled; left; reflexivity|apply escaped_plain|apply legal_allowed, L|left; reflexivity|apply xc_end].
      destruct (escape_head s NE) as (c & t & -> & _). discriminate.
  - apply wh_end.
Qed.
Lemma header_prolog : prolog xml_header.
Proof.
  change xml_header with (("<?xml" ++ (" version=" ++ quoted quote_mark "1.0" ++ " encoding=" ++ quoted quote_mark "UTF-8") ++ "?>") ++ String "010" "" ++ "").
  apply pr_skip; [apply sk_declaration; cbn; auto 10|]. apply pr_white; [apply wh_more; [cbn; auto|apply wh_end]|discriminate|left; reflexivity|apply pr_end].
Qed.
Theorem written_document pretty x : is_elem x = true -> proper x -> xdocument (xml_header ++ xml_text pretty 0 x) (xml_seen pretty x).
Proof.
  intros E P. rewrite <- (app_nil (xml_text pretty 0 x)). apply xd; [apply header_prolog|]. exact (all_written pretty x E P 0%nat no_scope).
Qed.
