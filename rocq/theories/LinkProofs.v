(** Proofs about BOM links. *)
From Verif Require Import Base Regex RegexProofs LinkModel LinkSpec.
From Coq Require Import Lia.
Local Open Scope string_scope.

(** ** Character classes *)

Lemma all_ascii (P : ascii -> bool) :
  forallb P (map ascii_of_nat (seq 0 256)) = true -> forall a, P a = true.
Proof.
  intros H a. rewrite forallb_forall in H. apply H.
  apply in_map_iff. exists (nat_of_ascii a). split; [apply ascii_nat_embedding|].
  apply in_seq. pose proof (nat_ascii_bounded a). lia.
Qed.

Definition one_ofb (chars : string) (a : ascii) : bool :=
  existsb (Ascii.eqb a) (list_ascii_of_string chars).

Lemma one_ofb_iff chars a : one_ofb chars a = true <-> one_of chars a.
Proof.
  unfold one_ofb, one_of. rewrite existsb_exists. split.
  - intros (b & Hb & E). apply Ascii.eqb_eq in E as ->. exact Hb.
  - intros H. exists a. split; [exact H|apply Ascii.eqb_refl].
Qed.

Lemma all_of_cons chars a s : all_of chars (String a s) <-> one_of chars a /\ all_of chars s.
Proof.
  unfold all_of; cbn. split.
  - intros H. split; [apply H; auto|intros b Hb; apply H; auto].
  - intros [Ha Hs] b [<-|Hb]; auto.
Qed.

Lemma str_all_iff p chars s :
  (forall a, p a = one_ofb chars a) -> str_all p s = true <-> all_of chars s.
Proof.
  intros Hp. induction s as [|a s IH]; cbn.
  - split; [intros _ b []|reflexivity].
  - rewrite all_of_cons, andb_true_iff, IH, Hp, one_ofb_iff. reflexivity.
Qed.

Lemma cls_eq (c : cls) chars :
  forallb (fun a => Bool.eqb (in_cls c a) (one_ofb chars a)) (map ascii_of_nat (seq 0 256)) = true ->
  forall a, in_cls c a = one_ofb chars a.
Proof.
  intros H a. pose proof (all_ascii (fun a => Bool.eqb (in_cls c a) (one_ofb chars a)) H a) as E.
  now apply Bool.eqb_prop in E.
Qed.

Definition hex_cls : cls := [("0", "9"); ("a", "f")]%char.
Definition nz_cls : cls := [("1", "9")]%char.
Definition ref_cls : cls :=
  [("0", "9"); ("a", "z"); ("A", "Z"); ("-", "-"); (".", "."); ("_", "_"); ("~", "~"); ("%", "%"); ("!", "!");
   ("$", "$"); ("&", "&"); ("'", "'"); ("(", "("); (")", ")"); ("*", "*"); ("+", "+"); (",", ","); (";", ";");
   ("=", "="); (":", ":"); ("@", "@"); ("/", "/"); ("?", "?")]%char.

Lemma hex_cls_ok : forall a, in_cls hex_cls a = one_ofb lower_hex_digits a.
Proof. apply cls_eq. vm_compute. reflexivity. Qed.
Lemma digit_cls_ok : forall a, in_cls digit_cls a = one_ofb decimal_digits a.
Proof. apply cls_eq. vm_compute. reflexivity. Qed.
Lemma nz_cls_ok : forall a, in_cls nz_cls a = one_ofb "123456789" a.
Proof. apply cls_eq. vm_compute. reflexivity. Qed.
Lemma ref_cls_ok : forall a, in_cls ref_cls a = one_ofb reference_chars a.
Proof. apply cls_eq. vm_compute. reflexivity. Qed.

(** ** The compiled regexps as sequences *)

Definition lit (a : ascii) : re := RCls [(a, a)].
Fixpoint lits (s : string) (r : re) : re :=
  match s with EmptyString => r | String a s' => RSeq (lit a) (lits s' r) end.

Definition uuid_re (k : re) : re :=
  RSeq (RRep 8 hex_cls) (RSeq (lit "-") (RSeq (RRep 4 hex_cls) (RSeq (lit "-")
  (RSeq (RRep 4 hex_cls) (RSeq (lit "-") (RSeq (RRep 4 hex_cls) (RSeq (lit "-")
  (RSeq (RRep 12 hex_cls) k)))))))).

Lemma serial_re_eq :
  serialNumberRegex = RSeq RBegin (lits "urn:uuid:" (uuid_re (RSeq REnd REps))).
Proof. reflexivity. Qed.

Lemma link_re_eq :
  bomLinkRegex =
  RSeq RBegin (lits "urn:cdx:" (RSeq (RGrp 1 (uuid_re REps)) (RSeq (lit "/")
   (RSeq (RGrp 2 (RSeq (RCls nz_cls) (RSeq (RStar digit_cls) REps)))
   (RSeq (ROpt (RSeq (lit "#") (RSeq (RGrp 3 (RSeq (RSeq (RCls ref_cls) (RStar ref_cls)) REps)) REps)))
   (RSeq REnd REps)))))).
Proof. reflexivity. Qed.

Lemma in_cls_single a b : in_cls [(a, a)] b = true -> b = a.
Proof.
  unfold in_cls, in_range; cbn. rewrite orb_false_r, andb_true_iff, !N.leb_le. intros [H1 H2].
  unfold byte_of in *. rewrite <- (ascii_N_embedding a), <- (ascii_N_embedding b). f_equal. lia.
Qed.

Lemma in_cls_refl a : in_cls [(a, a)] a = true.
Proof. unfold in_cls, in_range; cbn. now rewrite N.leb_refl. Qed.

Lemma den_lits full p r s s' g g' :
  den full (lits p r) s s' g g' <-> exists t, s = p ++ t /\ den full r t s' g g'.
Proof.
  revert s; induction p as [|a p IH]; intros s; cbn.
  - split; [eauto|]. now intros (t & -> & H).
  - split.
    + intros (s1 & g1 & (b & -> & Hb & ->) & H). apply in_cls_single in Hb as ->.
      apply IH in H as (t & -> & H). eauto.
    + intros (t & -> & H). exists (p ++ t), g. split.
      * exists a. split; [reflexivity|]. split; [apply in_cls_refl|reflexivity].
      * apply IH. eauto.
Qed.

Lemma all_of_app chars a b : all_of chars (a ++ b) <-> all_of chars a /\ all_of chars b.
Proof.
  induction a as [|x a IH]; cbn.
  - split; [intros H; split; [intros y []|exact H]|now intros [_ H]].
  - rewrite !all_of_cons, IH. tauto.
Qed.

Lemma den_uuid full k s s' g g' :
  den full (uuid_re k) s s' g g' <-> exists u t, s = u ++ t /\ uuid u /\ den full k t s' g g'.
Proof.
  unfold uuid_re. cbn [den lit]. split.
  - intros H.
    repeat match goal with
           | H : exists _, _ |- _ => destruct H
           | H : _ /\ _ |- _ => destruct H
           | H : in_cls [(_, _)] _ = true |- _ => apply in_cls_single in H
           | H : str_all (in_cls hex_cls) _ = true |- _ => apply (str_all_iff _ _ _ hex_cls_ok) in H
           end. subst.
    match goal with |- exists _ _, ?a ++ String "-" (?b ++ String "-" (?c ++ String "-" (?d ++ String "-" (?e ++ ?tl)))) = _ /\ _ =>
      exists (a ++ "-" ++ b ++ "-" ++ c ++ "-" ++ d ++ "-" ++ e), tl end.
    split; [now rewrite !append_assoc'|]. split; [|assumption].
    do 5 eexists. split; [reflexivity|]. rewrite !all_of_app. tauto.
  - intros (u & t & -> & (a & b & c & d & e & -> & La & Lb & Lc & Ld & Le & Hall) & Hk).
    rewrite !all_of_app in Hall. destruct Hall as (Ha & Hb & Hc & Hd & He).
    apply (str_all_iff _ _ _ hex_cls_ok) in Ha, Hb, Hc, Hd, He.
    rewrite !append_assoc'.
    do 2 eexists. split; [exists a; repeat split; auto|].
    do 2 eexists. split; [exists "-"%char; repeat split; auto using in_cls_refl|].
    do 2 eexists. split; [exists b; repeat split; auto|].
    do 2 eexists. split; [exists "-"%char; repeat split; auto using in_cls_refl|].
    do 2 eexists. split; [exists c; repeat split; auto|].
    do 2 eexists. split; [exists "-"%char; repeat split; auto using in_cls_refl|].
    do 2 eexists. split; [exists d; repeat split; auto|].
    do 2 eexists. split; [exists "-"%char; repeat split; auto using in_cls_refl|].
    do 2 eexists. split; [exists e; repeat split; auto|].
    exact Hk.
Qed.

(** ** Serial numbers *)

Lemma serial_match_iff s : match_string serialNumberRegex s = true <-> valid_serial s.
Proof.
  unfold match_string. rewrite serial_re_eq. split.
  - destruct (find_submatch _ s) as [g|] eqn:E; [|discriminate]. intros _.
    apply find_anchored_sound in E as (s' & g' & Hd & _).
    cbn [den] in Hd. destruct Hd as (s1 & g1 & (_ & -> & ->) & Hd).
    apply den_lits in Hd as (t & -> & Hd). apply den_uuid in Hd as (u & t' & -> & Hu & Hd).
    cbn [den] in Hd. destruct Hd as (s2 & g2 & (-> & -> & ->) & (-> & ->)).
    exists u. rewrite append_nil_r. auto.
  - intros (u & -> & Hu).
    destruct (find_complete (RSeq RBegin (lits "urn:uuid:" (uuid_re (RSeq REnd REps))))
                ("urn:uuid:" ++ u) "" []) as [g ->]; [|reflexivity].
    cbn [den]. do 2 eexists. split; [split; [reflexivity|split; reflexivity]|].
    apply den_lits. exists u. split; [reflexivity|].
    apply den_uuid. exists u, "". rewrite append_nil_r. split; [reflexivity|]. split; [exact Hu|].
    cbn [den]. do 2 eexists. repeat split.
Qed.

(** ** Links *)

Definition link_ref_text (ref : option string) : string := match ref with Some r => "#" ++ r | None => "" end.

Definition link_caps (u ver : string) (ref : option string) : caps :=
  match ref with
  | Some r => [(3, r); (2, ver); (1, u)]
  | None => [(2, ver); (1, u)]
  end.

Lemma den_link s s' g' :
  den s bomLinkRegex s s' [] g' <->
  exists u ver ref, link_text s u ver ref /\ s' = "" /\ g' = link_caps u ver ref.
Proof.
  rewrite link_re_eq. split.
  - intros Hd. cbn [den] in Hd. destruct Hd as (s1 & g1 & (_ & -> & ->) & Hd).
    apply den_lits in Hd as (t & -> & Hd). cbn [den] in Hd.
    destruct Hd as (t1 & g1 & (u & g2 & Et & Hu & ->) & Hd).
    apply den_uuid in Hu as (u' & t' & -> & Hu & Hk). cbn [den] in Hk. destruct Hk as [-> ->].
    assert (u = u') as <-.
    { destruct (append_inj_len u t' u' t'); auto.
      apply (f_equal String.length) in Et. rewrite !length_append in Et. lia. }
    clear Et.
    destruct Hd as (t2 & g2 & (b & -> & Hb & ->) & Hd). apply in_cls_single in Hb as ->.
    destruct Hd as (t3 & g3 & (ver & g4 & -> & Hv & ->) & Hd).
    destruct Hv as (t4 & g5 & (z & Ez & Hz & ->) & t5 & g6 & (ds & -> & Hds & ->) & -> & ->).
    assert (ver = String z ds) as ->.
    { destruct (append_inj_len ver t5 (String z ds) t5) as [-> _]; auto.
      apply (f_equal String.length) in Ez. cbn in *. rewrite !length_append in Ez. lia. }
    rewrite nz_cls_ok, one_ofb_iff in Hz. apply (str_all_iff _ _ _ digit_cls_ok) in Hds.
    destruct Hd as (t6 & g7 & Hopt & t7 & g8 & (E1 & E2 & E3) & E4 & E5). subst.
    destruct Hopt as [Href|[E6 E7]]; subst.
    + destruct Href as (t8 & g9 & (h & Eh & Hh & E1) & t9 & g10 & Hg & E2 & E3). subst.
      apply in_cls_single in Hh as ->.
      destruct Hg as (ref & g11 & E1 & (t10 & g12 & Hr & E2 & E3) & E4).
      destruct Hr as (t11 & g13 & (c & Ec & Hc & ->) & (rs & Ers & Hrs & E5)).
      subst. rewrite append_nil_r in Ec. subst ref. rewrite !append_nil_r.
      exists u, (String z ds), (Some (String c rs)). split; [|split; reflexivity].
      split; [reflexivity|]. split; [exact Hu|]. split; [exists z, ds; auto|].
      split; [discriminate|]. apply all_of_cons.
      rewrite ref_cls_ok, one_ofb_iff in Hc. apply (str_all_iff _ _ _ ref_cls_ok) in Hrs. auto.
    + exists u, (String z ds), None. split; [|split; reflexivity].
      split; [reflexivity|]. split; [exact Hu|]. split; [exists z, ds; auto|exact I].
  - intros (u & ver & ref & (-> & Hu & (z & ds & -> & Hz & Hds) & Href) & -> & ->).
    rewrite <- one_ofb_iff, <- nz_cls_ok in Hz. apply (str_all_iff _ _ _ digit_cls_ok) in Hds.
    cbn [den]. do 2 eexists. split; [split; [reflexivity|split; reflexivity]|].
    apply den_lits. eexists. split; [reflexivity|]. cbn [den].
    do 2 eexists. split.
    { exists u. eexists. split; [reflexivity|]. split; [|reflexivity].
      apply den_uuid. do 2 eexists. split; [reflexivity|]. split; [exact Hu|]. cbn [den]. split; reflexivity. }
    do 2 eexists. split; [exists "/"%char; repeat split; apply in_cls_refl|].
    do 2 eexists. split.
    { exists (String z ds). eexists. split; [reflexivity|]. split; [|reflexivity].
      do 2 eexists. split; [exists z; repeat split; exact Hz|].
      do 2 eexists. split; [exists ds; repeat split; exact Hds|]. split; reflexivity. }
    destruct ref as [r|].
    + destruct Href as [Hne Hr]. destruct r as [|c rs]; [congruence|].
      apply all_of_cons in Hr as [Hc Hrs].
      rewrite <- one_ofb_iff, <- ref_cls_ok in Hc. apply (str_all_iff _ _ _ ref_cls_ok) in Hrs.
      exists ""; eexists. split.
      { left. do 2 eexists. split; [exists "#"%char; repeat split; apply in_cls_refl|].
        do 2 eexists. split; [|split; reflexivity].
        exists (String c rs). eexists. rewrite append_nil_r. split; [reflexivity|]. split; [|reflexivity].
        do 2 eexists. split; [|split; reflexivity].
        do 2 eexists. split; [exists c; repeat split; exact Hc|].
        exists rs. rewrite append_nil_r. repeat split. exact Hrs. }
      do 2 eexists. repeat split.
    + exists "". eexists. split; [right; split; reflexivity|].
      do 2 eexists. repeat split.
Qed.

Lemma is_bom_link_iff s : IsBOMLink s = true <-> exists u ver ref, link_text s u ver ref.
Proof.
  unfold IsBOMLink, match_string. split.
  - destruct (find_submatch _ s) as [g|] eqn:E; [|discriminate]. intros _.
    rewrite link_re_eq in E. apply find_anchored_sound in E as (s' & g' & Hd & _).
    rewrite <- link_re_eq in Hd. apply den_link in Hd as (u & ver & ref & H & _). eauto.
  - intros (u & ver & ref & H).
    destruct (find_complete bomLinkRegex s "" (link_caps u ver ref)) as [g ->]; [|reflexivity].
    apply den_link. eauto 6.
Qed.

(** Unique decomposition. *)

Lemma uuid_length u : uuid u -> String.length u = 36.
Proof.
  intros (a & b & c & d & e & -> & La & Lb & Lc & Ld & Le & _).
  rewrite !length_append. cbn [String.length]. lia.
Qed.

Lemma split_at_class (P : ascii -> Prop) a b x y :
  (forall c, In c (list_ascii_of_string a) -> P c) ->
  (forall c, In c (list_ascii_of_string b) -> P c) ->
  (match x with String c _ => ~ P c | "" => True end) ->
  (match y with String c _ => ~ P c | "" => True end) ->
  a ++ x = b ++ y -> a = b /\ x = y.
Proof.
  revert b; induction a as [|c a IH]; intros [|d b] Ha Hb Hx Hy E; cbn in E.
  - auto.
  - subst x. exfalso. apply Hx, Hb. cbn; auto.
  - subst y. exfalso. apply Hy, Ha. cbn; auto.
  - injection E as -> E. destruct (IH b) as [-> ->]; auto.
    + intros z Hz. apply Ha. cbn; auto.
    + intros z Hz. apply Hb. cbn; auto.
Qed.

Lemma positive_decimal_digits v : positive_decimal v -> all_of decimal_digits v.
Proof.
  intros (a & r & -> & Ha & Hr). apply all_of_cons. split; [|exact Hr].
  unfold one_of in *; cbn in *. tauto.
Qed.

Lemma link_text_unique s u v r u' v' r' :
  link_text s u v r -> link_text s u' v' r' -> u = u' /\ v = v' /\ r = r'.
Proof.
  intros (-> & Hu & Hv & Hr) (E & Hu' & Hv' & Hr').
  apply append_inv_head in E.
  apply append_inj_len in E; [|now rewrite !uuid_length]. destruct E as [-> E].
  apply append_inv_head in E.
  apply (split_at_class (one_of decimal_digits)) in E.
  - destruct E as [-> E]. split; [reflexivity|]. split; [reflexivity|].
    destruct r, r'; cbn in E; congruence.
  - now apply positive_decimal_digits.
  - now apply positive_decimal_digits.
  - destruct r; [|exact I]. cbn. intros H. cbv in H. intuition discriminate.
  - destruct r'; [|exact I]. cbn. intros H. cbv in H. intuition discriminate.
Qed.

Lemma find_link s u v r :
  link_text s u v r -> exists t, find_submatch bomLinkRegex s = Some ((0, t) :: link_caps u v r).
Proof.
  intros H.
  destruct (find_complete bomLinkRegex s "" (link_caps u v r)) as [g E]; [apply den_link; eauto 6|].
  rewrite E. rewrite link_re_eq in E. apply find_anchored_sound in E as (s' & g' & Hd & ->).
  rewrite <- link_re_eq in Hd. apply den_link in Hd as (u' & v' & r' & H' & -> & ->).
  destruct (link_text_unique _ _ _ _ _ _ _ H H') as (-> & -> & ->). eauto.
Qed.

Lemma find_not_link s :
  find_submatch bomLinkRegex s = None <-> ~ exists u ver ref, link_text s u ver ref.
Proof.
  rewrite <- is_bom_link_iff. unfold IsBOMLink, match_string.
  destruct (find_submatch bomLinkRegex s); split; congruence.
Qed.

(** ** Decimal numbers *)

Lemma digit_range a : in_range "0" "9" a = one_ofb decimal_digits a.
Proof. rewrite <- digit_cls_ok. unfold in_cls; cbn. now rewrite orb_false_r. Qed.

Lemma digits_val_ok s acc :
  all_of decimal_digits s ->
  digits_val s acc = Some (acc * 10 ^ Z.of_nat (String.length s) + decimal_value s)%Z.
Proof.
  revert acc; induction s as [|a s IH]; intros acc H.
  - cbn. f_equal. lia.
  - apply all_of_cons in H as [Ha Hs]. cbn [digits_val decimal_value String.length].
    rewrite digit_range. rewrite (proj2 (one_ofb_iff _ _) Ha). rewrite IH by exact Hs. f_equal.
    unfold byte_of. rewrite Nat2Z.inj_succ, Z.pow_succ_r by lia. ring.
Qed.

Lemma decimal_value_nonneg s : (0 <= decimal_value s)%Z.
Proof.
  induction s as [|a s IH]; cbn; [lia|].
  pose proof (Z.pow_nonneg 10 (Z.of_nat (String.length s))). nia.
Qed.

Lemma one_of_pos a : one_of "123456789" a -> (1 <= Z.of_N (N_of_ascii a - 48))%Z.
Proof. unfold one_of; cbn. intuition subst; vm_compute; discriminate. Qed.

Lemma positive_decimal_pos v : positive_decimal v -> (1 <= decimal_value v)%Z.
Proof.
  intros (a & r & -> & Ha & _). apply one_of_pos in Ha. cbn [decimal_value].
  pose proof (decimal_value_nonneg r).
  pose proof (Z.pow_pos_nonneg 10 (Z.of_nat (String.length r))). nia.
Qed.

Lemma atoi_decimal v :
  positive_decimal v ->
  atoi v = if (decimal_value v <=? max_int)%Z then Ok (decimal_value v) else Err ErrRange.
Proof.
  intros Hv. pose proof (positive_decimal_pos v Hv) as Hpos.
  pose proof (positive_decimal_digits v Hv) as Hd.
  pose proof (digits_val_ok v 0 Hd) as E.
  destruct Hv as (a & r & -> & Ha & Hr).
  assert (Hsign : (match String a r with String "-" r => (true, r) | String "+" r => (false, r) | _ => (false, String a r) end)
                  = (false, String a r)).
  { unfold one_of in Ha; cbn in Ha. intuition subst; reflexivity. }
  unfold atoi. rewrite Hsign, E. rewrite Z.mul_0_l, Z.add_0_l.
  unfold is_int. replace (min_int <=? _)%Z with true; [reflexivity|].
  symmetry. apply Z.leb_le. unfold min_int. lia.
Qed.

Lemma digit_char_val d : (0 <= d < 10)%Z -> Z.of_N (N_of_ascii (digit_char d) - 48) = d.
Proof.
  intros H. unfold digit_char. rewrite N_ascii_embedding by lia. lia.
Qed.

Lemma digit_char_digit d : (0 <= d < 10)%Z -> one_of decimal_digits (digit_char d).
Proof.
  intros H. assert (d = 0 \/ d = 1 \/ d = 2 \/ d = 3 \/ d = 4 \/ d = 5 \/ d = 6 \/ d = 7 \/ d = 8 \/ d = 9)%Z by lia.
  unfold one_of. cbn. intuition subst; vm_compute; tauto.
Qed.

Lemma digit_char_nz d : (1 <= d < 10)%Z -> one_of "123456789" (digit_char d).
Proof.
  intros H. assert (d = 1 \/ d = 2 \/ d = 3 \/ d = 4 \/ d = 5 \/ d = 6 \/ d = 7 \/ d = 8 \/ d = 9)%Z by lia.
  unfold one_of. cbn. intuition subst; vm_compute; tauto.
Qed.

Lemma dec_digits_ok fuel : forall z acc,
  (1 <= z)%Z -> (z < 2 ^ Z.of_nat fuel)%Z -> all_of decimal_digits acc ->
  positive_decimal (dec_digits fuel z acc) /\
  decimal_value (dec_digits fuel z acc) = (z * 10 ^ Z.of_nat (String.length acc) + decimal_value acc)%Z.
Proof.
  induction fuel as [|f IH]; intros z acc Hz Hlt Hacc.
  - cbn in Hlt. lia.
  - cbn [dec_digits]. pose proof (Z.mod_pos_bound z 10 ltac:(lia)) as Hm.
    destruct (Z.ltb_spec z 10) as [H10|H10].
    + rewrite Z.mod_small by lia. split.
      * do 2 eexists. split; [reflexivity|]. split; [apply digit_char_nz; lia|exact Hacc].
      * cbn [decimal_value]. rewrite digit_char_val by lia. reflexivity.
    + assert (Hdm := Z.div_mod z 10 ltac:(lia)).
      rewrite Nat2Z.inj_succ, Z.pow_succ_r in Hlt by lia.
      destruct (IH (z / 10)%Z (String (digit_char (z mod 10)) acc)) as [IH1 IH2].
      * lia.
      * lia.
      * apply all_of_cons. split; [apply digit_char_digit; lia|exact Hacc].
      * split; [exact IH1|]. rewrite IH2. cbn [decimal_value String.length].
        rewrite digit_char_val by lia. rewrite Nat2Z.inj_succ, Z.pow_succ_r by lia.
        transitivity ((10 * (z / 10) + z mod 10) * 10 ^ Z.of_nat (String.length acc) + decimal_value acc)%Z;
          [ring|now rewrite <- Hdm].
Qed.

Lemma format_int_pos z :
  (1 <= z)%Z -> positive_decimal (format_int z) /\ decimal_value (format_int z) = z.
Proof.
  intros Hz. unfold format_int. replace (z <? 0)%Z with false by (symmetry; apply Z.ltb_ge; lia).
  destruct (dec_digits_ok (S (Z.to_nat (Z.log2 z))) z "") as [H1 H2].
  - exact Hz.
  - rewrite Nat2Z.inj_succ, Z2Nat.id by apply Z.log2_nonneg. apply Z.log2_spec. lia.
  - intros a [].
  - split; [exact H1|]. rewrite H2. cbn. lia.
Qed.

(** ** Percent encoding *)

Lemma ascii_N_lt a : (N_of_ascii a < 256)%N.
Proof. apply N_ascii_bounded. Qed.

Definition esc_ok (a : ascii) : bool :=
  match unhex (hex_digit_upper (byte_of a / 16)), unhex (hex_digit_upper (byte_of a mod 16)) with
  | Some x, Some y => Ascii.eqb (ascii_of_N (16 * x + y)) a
  | _, _ => false
  end.

Lemma esc_ok_all a : esc_ok a = true.
Proof. apply all_ascii. vm_compute. reflexivity. Qed.

Lemma unreserved_not a : url_unreserved a = true -> Ascii.eqb a "%" = false /\ Ascii.eqb a "+" = false.
Proof.
  pose proof (all_ascii (fun a => implb (url_unreserved a) (negb (Ascii.eqb a "%") && negb (Ascii.eqb a "+")))) as H.
  specialize (H ltac:(vm_compute; reflexivity) a). cbv beta in H. intros E. rewrite E in H.
  apply andb_prop in H as [H1 H2]. apply negb_true_iff in H1, H2. auto.
Qed.

Lemma unescape_escape s : query_unescape (query_escape s) = Some s.
Proof.
  induction s as [|a s IH]; [reflexivity|]. cbn [query_escape].
  destruct (Ascii.eqb_spec a " ") as [->|Hsp].
  - cbn [query_unescape]. cbn. now rewrite IH.
  - destruct (url_unreserved a) eqn:Hu.
    + apply unreserved_not in Hu as [H1 H2]. cbn [query_unescape]. rewrite H1, IH, H2. reflexivity.
    + cbn [query_unescape]. rewrite Ascii.eqb_refl. pose proof (esc_ok_all a) as He. unfold esc_ok in He.
      destruct (unhex (hex_digit_upper (byte_of a / 16))); [|discriminate].
      destruct (unhex (hex_digit_upper (byte_of a mod 16))); [|discriminate].
      rewrite IH. apply Ascii.eqb_eq in He. now rewrite He.
Qed.

Definition escc_ok (a : ascii) : bool :=
  implb (url_unreserved a) (one_ofb reference_chars a) &&
  one_ofb reference_chars (hex_digit_upper (byte_of a / 16)) &&
  one_ofb reference_chars (hex_digit_upper (byte_of a mod 16)).

Lemma escc_ok_all a : escc_ok a = true.
Proof. apply all_ascii. vm_compute. reflexivity. Qed.

Lemma escape_chars s : all_of reference_chars (query_escape s).
Proof.
  induction s as [|a s IH]; [intros b []|]. cbn [query_escape].
  pose proof (escc_ok_all a) as H. unfold escc_ok in H.
  rewrite !andb_true_iff in H. destruct H as [[H1 H2] H3].
  destruct (Ascii.eqb a " ").
  - apply all_of_cons. split; [|exact IH]. apply one_ofb_iff. reflexivity.
  - destruct (url_unreserved a).
    + apply all_of_cons. split; [|exact IH]. apply one_ofb_iff. exact H1.
    + rewrite !all_of_cons, <- !one_ofb_iff. auto.
Qed.

Lemma escape_nonempty s : s <> "" -> query_escape s <> "".
Proof.
  destruct s as [|a s]; [congruence|]. intros _. cbn.
  destruct (Ascii.eqb a " "); [discriminate|]. destruct (url_unreserved a); discriminate.
Qed.

(** ** Theorems *)

Definition link_ref_of (ref : string) : option string :=
  if str_eqb ref "" then None else Some (query_escape ref).

Lemma link_string_text u v ref :
  uuid u -> (1 <= v)%Z ->
  link_text (BOMLink_String (mkBOMLink ("urn:uuid:" ++ u) v ref)) u (format_int v) (link_ref_of ref).
Proof.
  intros Hu Hv. unfold BOMLink_String, link_ref_of, str_eqb. cbn [link_serialNumber link_version link_reference].
  assert (Ht : trim_prefix "urn:uuid:" ("urn:uuid:" ++ u) = u) by reflexivity.
  rewrite Ht.
  destruct (format_int_pos v Hv) as [Hp _].
  destruct (String.eqb_spec ref "") as [->|Hne].
  - split; [now rewrite append_nil_r|]. auto.
  - split; [reflexivity|]. split; [exact Hu|]. split; [exact Hp|].
    split; [now apply escape_nonempty|apply escape_chars].
Qed.

Lemma parse_text s u v r :
  link_text s u v r ->
  ParseBOMLink s =
  if (decimal_value v <=? max_int)%Z then
    match r with
    | None => Ok (mkBOMLink ("urn:uuid:" ++ u) (decimal_value v) "")
    | Some t => match query_unescape t with
                | Some ref => Ok (mkBOMLink ("urn:uuid:" ++ u) (decimal_value v) ref)
                | None => Err EUnescape
                end
    end
  else Err (EParseVersion ErrRange).
Proof.
  intros H. destruct (find_link _ _ _ _ H) as [t E]. unfold ParseBOMLink. rewrite E.
  destruct H as (_ & _ & Hv & _). pose proof (atoi_decimal v Hv) as Ha.
  destruct r as [r|]; cbn [link_caps group Nat.eqb]; rewrite Ha;
    destruct (decimal_value v <=? max_int)%Z; reflexivity.
Qed.

Definition link_wf (l : BOMLink) : Prop :=
  valid_serial (link_serialNumber l) /\ (1 <= link_version l)%Z.

Lemma wf_roundtrip l :
  link_wf l -> (link_version l <= max_int)%Z -> ParseBOMLink (BOMLink_String l) = Ok l.
Proof.
  destruct l as [s v ref]. intros [(u & Es & Hu) Hv] Hmax.
  cbn [link_serialNumber link_version] in *. subst s.
  rewrite (parse_text _ _ _ _ (link_string_text u v ref Hu Hv)).
  destruct (format_int_pos v Hv) as [_ ->]. apply Z.leb_le in Hmax as ->.
  unfold link_ref_of, str_eqb. destruct (String.eqb_spec ref "") as [->|_]; [reflexivity|].
  now rewrite unescape_escape.
Qed.

Lemma new_link_iff serial v e l :
  NewBOMLink serial v e = Ret (Ok l) <->
  valid_serial serial /\ (1 <= v)%Z /\
  exists ref, l = mkBOMLink serial v ref /\
    ((e = ElemNil /\ ref = "") \/ (elem_bomref e = Some ref /\ ref <> "")).
Proof.
  unfold NewBOMLink. rewrite <- serial_match_iff.
  destruct (match_string serialNumberRegex serial); cbn [negb]; [|split; [discriminate|intros [H _]; discriminate H]].
  destruct (Z.ltb_spec v 1) as [Hv|Hv]; [split; [discriminate|intros (_ & H & _); lia]|].
  assert (Hgen : forall r, (if str_eqb r "" then Ret (Err ENoBOMRef) else Ret (Ok (mkBOMLink serial v r))) = Ret (Ok l)
                 <-> l = mkBOMLink serial v r /\ r <> "").
  { intros r. unfold str_eqb. destruct (String.eqb_spec r ""); split; try discriminate.
    - intros [_ H]; contradiction.
    - intros H. injection H as <-. auto.
    - intros [-> _]. reflexivity. }
  destruct e as [|r|[r|]|r|[r|]|r|[r|]|]; cbn [elem_ref elem_bomref].
  1: { split.
       - intros H. injection H as <-. split; [reflexivity|]. split; [exact Hv|]. exists "". auto.
       - intros (_ & _ & ref & -> & [[_ ->]|[H _]]); [reflexivity|discriminate]. }
  all: try (split; [discriminate|intros (_ & _ & ref & _ & [[H _]|[H _]]); discriminate]).
  all: rewrite Hgen; split;
    [ intros [-> Hr]; split; [reflexivity|]; split; [exact Hv|]; exists r; auto
    | intros (_ & _ & ref & -> & [[H _]|[H Hne]]); [discriminate|]; injection H as ->; auto ].
Qed.

Lemma parse_ok_iff s l :
  ParseBOMLink s = Ok l <->
  exists u v r, link_text s u v r /\ (decimal_value v <= max_int)%Z /\
    link_serialNumber l = "urn:uuid:" ++ u /\ link_version l = decimal_value v /\
    query_unescape match r with Some t => t | None => "" end = Some (link_reference l).
Proof.
  split.
  - intros H. destruct (IsBOMLink s) eqn:E.
    + apply is_bom_link_iff in E as (u & v & r & Ht). exists u, v, r. split; [exact Ht|].
      rewrite (parse_text _ _ _ _ Ht) in H.
      destruct (Z.leb_spec (decimal_value v) max_int); [|discriminate].
      split; [assumption|]. destruct r as [r|].
      * destruct (query_unescape r); [|discriminate]. injection H as <-. auto.
      * injection H as <-. auto.
    + unfold ParseBOMLink in H. unfold IsBOMLink, match_string in E.
      destruct (find_submatch bomLinkRegex s); discriminate.
  - intros (u & v & r & Ht & Hmax & E1 & E2 & E3). rewrite (parse_text _ _ _ _ Ht).
    apply Z.leb_le in Hmax as ->. destruct l as [ls lv lr]; cbn in *. subst ls lv.
    destruct r as [r|]; [now rewrite E3|]. cbn in E3. injection E3 as <-. reflexivity.
Qed.

(** [query_unescape] against the relational reading of percent-encoding. *)
Lemma unhex_hexval a n : unhex a = Some n <-> hexval a n.
Proof.
  split.
  - assert (Hall : forall a, (fun a => match unhex a with
       | Some n => match String.get (N.to_nat n) "0123456789abcdef", String.get (N.to_nat n) "0123456789ABCDEF" with
                   | Some x, Some y => Ascii.eqb x a || Ascii.eqb y a | _, _ => false end
       | None => true end) a = true) by (apply all_ascii; vm_compute; reflexivity).
    intros E. specialize (Hall a). cbv beta in Hall. rewrite E in Hall. exists (N.to_nat n).
    destruct (get _ "0123456789abcdef") as [x|]; [|discriminate].
    destruct (get _ "0123456789ABCDEF") as [y|]; [|discriminate].
    apply orb_prop in Hall. rewrite N2Nat.id. split; [|reflexivity].
    destruct Hall as [H|H]; apply Ascii.eqb_eq in H as ->; auto.
  - intros (i & H & ->).
    do 16 (destruct i as [|i]; [cbn in H; destruct H as [H|H]; injection H as <-; reflexivity|]).
    cbn in H. destruct H; discriminate.
Qed.

Lemma unescape_iff s t : query_unescape s = Some t <-> percent s t.
Proof.
  split.
  - revert t. remember (String.length s) as n eqn:Hn. revert s Hn.
    induction n as [n IH] using lt_wf_ind. intros s -> t.
    destruct s as [|a s]; cbn [query_unescape].
    + intros H; injection H as <-. constructor.
    + destruct (Ascii.eqb_spec a "%") as [->|Hp].
      * destruct s as [|h [|l rest]]; try discriminate.
        destruct (unhex h) as [x|] eqn:Eh; [|discriminate].
        destruct (unhex l) as [y|] eqn:El; [|discriminate].
        destruct (query_unescape rest) as [r|] eqn:Er; [|discriminate].
        intros H. injection H as <-. apply unhex_hexval in Eh, El.
        constructor; auto. eapply IH; [|reflexivity|exact Er]. cbn. lia.
      * destruct (query_unescape s) as [r|] eqn:Er; [|discriminate].
        intros H. injection H as <-.
        assert (percent s r) by (eapply IH; [|reflexivity|exact Er]; cbn; lia).
        destruct (Ascii.eqb_spec a "+") as [->|Hq]; constructor; auto.
  - induction 1 as [|s t _ IH|h l x y s t Hh Hl _ IH|a s t Ha Hb _ IH]; cbn [query_unescape].
    + reflexivity.
    + cbn. now rewrite IH.
    + rewrite Ascii.eqb_refl. apply unhex_hexval in Hh, Hl. now rewrite Hh, Hl, IH.
    + destruct (Ascii.eqb_spec a "%"); [contradiction|]. rewrite IH.
      destruct (Ascii.eqb_spec a "+"); [contradiction|]. reflexivity.
Qed.

(** ** Canonicity *)

Lemma decimal_value_bound s :
  all_of decimal_digits s -> (decimal_value s < 10 ^ Z.of_nat (String.length s))%Z.
Proof.
  induction s as [|a s IH]; intros H; [cbn; lia|].
  apply all_of_cons in H as [Ha Hs]. specialize (IH Hs).
  cbn [decimal_value String.length]. rewrite Nat2Z.inj_succ, Z.pow_succ_r by lia.
  assert (Z.of_N (N_of_ascii a - 48) <= 9)%Z.
  { clear -Ha. unfold one_of in Ha; cbn in Ha. intuition subst; vm_compute; discriminate. }
  nia.
Qed.

Lemma digit_inj a b :
  one_of decimal_digits a -> one_of decimal_digits b ->
  Z.of_N (N_of_ascii a - 48) = Z.of_N (N_of_ascii b - 48) -> a = b.
Proof.
  intros Ha Hb E.
  assert (48 <= N_of_ascii a)%N by (clear -Ha; unfold one_of in Ha; cbn in Ha; intuition subst; vm_compute; discriminate).
  assert (48 <= N_of_ascii b)%N by (clear -Hb; unfold one_of in Hb; cbn in Hb; intuition subst; vm_compute; discriminate).
  rewrite <- (ascii_N_embedding a), <- (ascii_N_embedding b). f_equal. lia.
Qed.

Lemma decimal_value_inj_len a b :
  all_of decimal_digits a -> all_of decimal_digits b ->
  String.length a = String.length b -> decimal_value a = decimal_value b -> a = b.
Proof.
  revert b; induction a as [|x a IH]; intros [|y b] Ha Hb HL E; try discriminate; [reflexivity|].
  apply all_of_cons in Ha as [Hx Ha]. apply all_of_cons in Hb as [Hy Hb].
  cbn in HL. injection HL as HL. cbn [decimal_value] in E. rewrite HL in E.
  pose proof (decimal_value_bound a Ha) as B1. pose proof (decimal_value_bound b Hb) as B2. rewrite HL in B1.
  pose proof (decimal_value_nonneg a). pose proof (decimal_value_nonneg b).
  set (T := (10 ^ Z.of_nat (String.length b))%Z) in *.
  assert (Exy : Z.of_N (N_of_ascii x - 48) = Z.of_N (N_of_ascii y - 48)) by nia.
  rewrite (digit_inj x y Hx Hy Exy). f_equal. apply IH; auto. rewrite Exy in E. lia.
Qed.

Lemma positive_decimal_low v :
  positive_decimal v -> (10 ^ (Z.of_nat (String.length v) - 1) <= decimal_value v)%Z.
Proof.
  intros (a & r & -> & Ha & Hr). cbn [decimal_value String.length].
  replace (Z.of_nat (S (String.length r)) - 1)%Z with (Z.of_nat (String.length r)) by lia.
  apply one_of_pos in Ha. pose proof (decimal_value_nonneg r).
  pose proof (Z.pow_pos_nonneg 10 (Z.of_nat (String.length r))). nia.
Qed.

Lemma positive_decimal_inj a b :
  positive_decimal a -> positive_decimal b -> decimal_value a = decimal_value b -> a = b.
Proof.
  intros Ha Hb E.
  pose proof (positive_decimal_digits a Ha) as Da. pose proof (positive_decimal_digits b Hb) as Db.
  apply decimal_value_inj_len; auto.
  pose proof (decimal_value_bound a Da). pose proof (decimal_value_bound b Db).
  pose proof (positive_decimal_low a Ha). pose proof (positive_decimal_low b Hb).
  destruct (Nat.lt_trichotomy (String.length a) (String.length b)) as [H3|[H3|H3]]; [|exact H3|].
  - assert (10 ^ Z.of_nat (String.length a) <= 10 ^ (Z.of_nat (String.length b) - 1))%Z by (apply Z.pow_le_mono_r; lia). lia.
  - assert (10 ^ Z.of_nat (String.length b) <= 10 ^ (Z.of_nat (String.length a) - 1))%Z by (apply Z.pow_le_mono_r; lia). lia.
Qed.

Lemma parse_grammar_iff s l :
  ParseBOMLink s = Ok l <->
  exists u v r, link_text s u v r /\ (decimal_value v <= max_int)%Z /\
    link_serialNumber l = "urn:uuid:" ++ u /\ link_version l = decimal_value v /\
    match r with
    | None => link_reference l = ""
    | Some t => percent t (link_reference l)
    end.
Proof.
  rewrite parse_ok_iff. split; intros (u & v & r & H1 & H2 & H3 & H4 & H5); exists u, v, r; repeat (split; [assumption|]).
  - destruct r; [now apply unescape_iff|]. cbn in H5. congruence.
  - destruct r; [now apply unescape_iff|]. cbn. congruence.
Qed.

Lemma parse_wf s l : ParseBOMLink s = Ok l -> link_wf l /\ (link_version l <= max_int)%Z.
Proof.
  intros H. apply parse_ok_iff in H as (u & v & r & (_ & Hu & Hv & _) & Hm & E1 & E2 & _).
  rewrite E2. split; [|exact Hm]. split; [exists u; auto|]. rewrite E2. now apply positive_decimal_pos.
Qed.

Lemma parse_reencode s l : ParseBOMLink s = Ok l -> ParseBOMLink (BOMLink_String l) = Ok l.
Proof. intros H. apply parse_wf in H as [H1 H2]. now apply wf_roundtrip. Qed.

Lemma percent_nonempty t r : percent t r -> t <> "" -> r <> "".
Proof. destruct 1; congruence. Qed.

Lemma parse_canonical s l :
  ParseBOMLink s = Ok l ->
  exists u v r, link_text s u v r /\ link_text (BOMLink_String l) u v (option_map (fun _ => query_escape (link_reference l)) r).
Proof.
  intros H. apply parse_grammar_iff in H as (u & v & r & Ht & Hm & E1 & E2 & E3).
  exists u, v, r. split; [exact Ht|]. destruct l as [ls lv lr]. cbn [link_serialNumber link_version link_reference] in *. subst ls lv.
  destruct Ht as (_ & Hu & Hv & Hr). pose proof (positive_decimal_pos v Hv) as Hp.
  pose proof (link_string_text u (decimal_value v) lr Hu Hp) as T.
  destruct (format_int_pos _ Hp) as [F1 F2]. rewrite (positive_decimal_inj _ _ F1 Hv F2) in T.
  unfold link_ref_of, str_eqb in T. destruct r as [r|].
  - destruct Hr as [Hne _]. apply percent_nonempty in E3; [|exact Hne].
    destruct (String.eqb_spec lr ""); [contradiction|exact T].
  - subst lr. exact T.
Qed.

Lemma parse_plain_identity s u v l :
  link_text s u v None -> ParseBOMLink s = Ok l -> BOMLink_String l = s.
Proof.
  intros Ht H. destruct (parse_canonical s l H) as (u' & v' & r' & T1 & T2).
  destruct (link_text_unique _ _ _ _ _ _ _ Ht T1) as (<- & <- & <-).
  destruct T2 as (-> & _). destruct Ht as (-> & _). reflexivity.
Qed.

Lemma parse_constructible s l :
  ParseBOMLink s = Ok l ->
  exists e, NewBOMLink (link_serialNumber l) (link_version l) e = Ret (Ok l).
Proof.
  intros H. apply parse_wf in H as [[Hs Hv] _].
  destruct (String.eqb_spec (link_reference l) "") as [E|E].
  - exists ElemNil. apply new_link_iff. split; [exact Hs|]. split; [exact Hv|].
    exists "". split; [destruct l; cbn in *; now subst|auto].
  - exists (ElemComponent (link_reference l)). apply new_link_iff. split; [exact Hs|]. split; [exact Hv|].
    exists (link_reference l). split; [now destruct l|right; auto].
Qed.

Lemma new_roundtrip serial v e l :
  is_int v = true -> NewBOMLink serial v e = Ret (Ok l) -> ParseBOMLink (BOMLink_String l) = Ok l.
Proof.
  intros Hi H. apply new_link_iff in H as (Hs & Hv & ref & -> & _).
  apply wf_roundtrip; [split; auto|]. cbn. unfold is_int in Hi. lia.
Qed.

Lemma new_string_inj s1 v1 e1 l1 s2 v2 e2 l2 :
  is_int v1 = true -> is_int v2 = true ->
  NewBOMLink s1 v1 e1 = Ret (Ok l1) -> NewBOMLink s2 v2 e2 = Ret (Ok l2) ->
  BOMLink_String l1 = BOMLink_String l2 -> l1 = l2.
Proof.
  intros I1 I2 H1 H2 E. apply new_roundtrip in H1; [|exact I1]. apply new_roundtrip in H2; [|exact I2]. congruence.
Qed.

Lemma new_string_is_link serial v e l :
  NewBOMLink serial v e = Ret (Ok l) -> IsBOMLink (BOMLink_String l) = true.
Proof.
  intros H. apply new_link_iff in H as ((u & -> & Hu) & Hv & ref & -> & _).
  apply is_bom_link_iff. do 3 eexists. now apply link_string_text.
Qed.

Lemma new_panic_iff serial v e :
  NewBOMLink serial v e = Panic <-> valid_serial serial /\ (1 <= v)%Z /\ typed_nil e.
Proof.
  unfold NewBOMLink, typed_nil. rewrite <- serial_match_iff.
  destruct (match_string serialNumberRegex serial); cbn [negb]; [|split; [discriminate|intros [H _]; discriminate H]].
  destruct (Z.ltb_spec v 1) as [Hv|Hv]; [split; [discriminate|intros (_ & H & _); lia]|].
  destruct e as [|r|[r|]|r|[r|]|r|[r|]|]; cbn [elem_ref]; try destruct (str_eqb r "");
    (split; [try discriminate; intros _; repeat split; auto; lia|]);
    intros (_ & _ & [H|[H|H]]); try discriminate; reflexivity.
Qed.

Lemma new_err_class serial v e er :
  NewBOMLink serial v e = Ret (Err er) <->
  (er = EInvalidSerial /\ ~ valid_serial serial) \/
  (er = EInvalidVersion /\ valid_serial serial /\ (v < 1)%Z) \/
  (er = ENotLinkable /\ valid_serial serial /\ (1 <= v)%Z /\ e = ElemOther) \/
  (er = ENoBOMRef /\ valid_serial serial /\ (1 <= v)%Z /\ elem_bomref e = Some "").
Proof.
  unfold NewBOMLink. rewrite <- serial_match_iff.
  destruct (match_string serialNumberRegex serial); cbn [negb].
  2: { split; [intros H; injection H as <-; left; auto|]. intros [[-> _]|[(_ & H & _)|[(_ & H & _)|(_ & H & _)]]]; congruence. }
  destruct (Z.ltb_spec v 1) as [Hv|Hv].
  { split; [intros H; injection H as <-; auto|].
    intros [[_ H]|[(-> & _)|[(_ & _ & H & _)|(_ & _ & H & _)]]]; [congruence|reflexivity|lia|lia]. }
  destruct e as [|r|[r|]|r|[r|]|r|[r|]|]; cbn [elem_ref elem_bomref]; unfold str_eqb;
    try (destruct (String.eqb_spec r ""));
    (split; [try discriminate; intros H; injection H as <-; subst; auto 10|]);
    intros [[_ H]|[(_ & _ & H)|[(? & _ & _ & H)|(? & _ & _ & H)]]]; subst; try congruence; lia.
Qed.
