(** The text of encoded BOMs, and what can be read from any text. *)
From Verif Require Import Base Types Univ TypeTable Wt Reify ReifyBase LinkModel Version Numbers NumbersProofs Utf8 Utf8Proofs GobModel JsonModel JsonBack JsonProofs JsonSpec JsonOut JsonBom JsonText JsonTextProofs JsonTextRound.
From Coq Require Import Lia.
Local Open Scope string_scope.

(** ** Enough fuel *)
Lemma need_text o : good_out o -> forall p d, (need o <= 2 * String.length (text p d o))%nat.
Proof.
  induction o as [|b|lit|e s|l IH|ms IH] using out_induction; intros G p d; try (cbn; lia).
  - destruct b; cbn; lia.
  - cbn [text need]. destruct (number_head lit G) as (a & s & -> & _). cbn; lia.
  - destruct l as [|x l]; [cbn; lia|]. rewrite text_arr, !length_append. cbn [String.length need fold_right].
    apply Forall_cons_iff in IH as (Hx & Hl). destruct G as (Gx & Gl). specialize (Hx Gx p (S d)).
    assert (M : (fold_right (fun x n => S (need x + n)) 0 l + 2 <= 2 * String.length (more_text p d l))%nat).
    { clear Hx Gx. induction Hl as [|y l Hy _ IHl]; cbn [fold_right more_text]; rewrite !length_append; [cbn; lia|].
      destruct Gl as (Gy & Gl). specialize (Hy Gy p (S d)). specialize (IHl Gl). cbn [String.length]. change (_ p d l) with (more_text p d l). lia. }
    lia.
  - destruct ms as [|[k x] ms]; [cbn; lia|]. rewrite text_obj, !length_append. cbn [String.length need fold_right snd].
    apply Forall_cons_iff in IH as (Hx & Hl). destruct G as ((_ & Gx) & Gl). cbn [snd] in *. specialize (Hx Gx p (S d)).
    assert (M : (fold_right (fun m n => S (need (snd m) + n)) 0 ms + 2 <= 2 * String.length (more_members p d ms))%nat).
    { clear Hx Gx. induction Hl as [|[k' y] ms Hy _ IHl]; cbn [fold_right more_members]; rewrite !length_append; [cbn; lia|].
      destruct Gl as ((_ & Gy) & Gl). cbn [snd] in *. specialize (Hy Gy p (S d)). specialize (IHl Gl). cbn [String.length]. change (_ p d ms) with (more_members p d ms). lia. }
    lia.
Qed.
Lemma parse_text p d o : good_out o -> parse (text p d o ++ String newline "") = Some (erase o).
Proof.
  intros G. unfold parse. rewrite (all_reads o G p d); [reflexivity| |reflexivity].
  pose proof (need_text o G p d). unfold enough. rewrite length_append. lia.
Qed.

(** ** What the encoder writes *)
Lemma keys_safe : forallb (fun k => String.eqb (str_text true k) k && String.eqb (to_utf8 k) k)%bool all_keys = true.
Proof. vm_compute. reflexivity. Qed.
Lemma key_safe k : In k all_keys -> safe_key k.
Proof.
  intros I. pose proof keys_safe as H. rewrite forallb_forall in H. specialize (H k I). apply andb_prop in H as (A & B).
  apply String.eqb_eq in A, B. split; assumption.
Qed.
Lemma written_good esc t v o : jenc esc t v = Ok o -> good_out o.
Proof.
  apply (jenc_all (fun _ o => good_out o)); cbn [good_out]; trivial.
  - intros _ z. apply format_number.
  - intros _ neg m e. apply float_number.
  - intros _ l F. rewrite list_all_forall. exact F.
  - intros _ ms F (K & _). rewrite list_all_forall. rewrite Forall_map in K. rewrite Forall_forall in *. intros m I. split; [apply key_safe, K, I|apply F, I].
Qed.
Lemma bom_parse pretty esc b o t : json_encode esc b = Ok o -> encode_text pretty o = Ok t -> parse t = Some (erase o).
Proof.
  intros E T. unfold encode_text in T. destruct (_ && _)%bool; [discriminate|]. injection T as <-. apply encode_writes in E as (E & _).
  rewrite bom_to_json_eq in E. apply parse_text, (written_good _ _ _ _ E).
Qed.

(** ** HTML characters *)
Definition html_char (a : ascii) : bool := (Ascii.eqb a "<" || Ascii.eqb a ">" || Ascii.eqb a "&")%bool.
Fixpoint no_html (s : string) : Prop := match s with "" => True | String a s' => html_char a = false /\ no_html s' end.
Lemma no_html_app a b : no_html a -> no_html b -> no_html (a ++ b).
Proof. induction a as [|x a IH]; [trivial|]. intros (A & B) C. split; auto. Qed.
Lemma byte_no_html a : one a = true -> no_html (byte_text true a).
Proof. destruct a as [[] [] [] [] [] [] [] []]; try discriminate; intros _; repeat split. Qed.
Lemma high_no_html a : one a = false -> html_char a = false.
Proof. destruct a as [[] [] [] [] [] [] [] []]; try discriminate; reflexivity. Qed.
Lemma three_high a b c : three a b c = true -> one a = false /\ one b = false /\ one c = false.
Proof.
  intros T. pose proof (three_first _ _ _ T) as F. apply andb_prop in T as (T & C). unfold cont in *. apply between_iff in C.
  repeat split; apply one_false; try lia. repeat (apply orb_prop in T as [T|T]); apply andb_prop in T as (_ & T); apply between_iff in T; lia.
Qed.
Lemma str_no_html s : no_html (str_text true s).
Proof.
  pose proof (run_str true s) as R. revert R. generalize (to_utf8 s) (str_text true s). intros u t R.
  induction R as [|a s u t O _ IH|a s u t _ IH|a b s u t O _ IH|a b c s u t O _ IH|a b c d s u t O _ IH].
  - exact I.
  - apply no_html_app; [apply byte_no_html, O|exact IH].
  - apply no_html_app; [repeat split|exact IH].
  - destruct (two_high _ _ O). repeat split; auto using high_no_html.
  - apply no_html_app; [|exact IH]. unfold three_text. destruct (_ && _ && _)%bool; [destruct (byte_of c =? 168)%N; repeat split|].
    destruct (three_high _ _ _ O) as (? & ? & ?). repeat split; auto using high_no_html.
  - destruct (four_high _ _ _ _ O) as (? & ? & ? & ?). repeat split; auto using high_no_html.
Qed.
Fixpoint all_escaped (o : out) : Prop :=
  match o with
  | OStr esc _ => esc = true
  | OArr l => list_all all_escaped l
  | OObj ms => list_all (fun m => all_escaped (snd m)) ms
  | _ => True
  end.
Lemma written_escaped t v o : jenc true t v = Ok o -> all_escaped o.
Proof.
  intros E. cut (true = true -> all_escaped o); [auto|]. revert E.
  apply (jenc_all (fun e o => e = true -> all_escaped o)); cbn [all_escaped]; auto.
  - intros esc l F ->. rewrite list_all_forall. eapply Forall_impl; [|exact F]. auto.
  - intros esc ms F _ ->. rewrite list_all_forall. eapply Forall_impl; [|exact F]. auto.
Qed.
Lemma num_no_html s : all_num s = true -> no_html s.
Proof.
  induction s as [|a s IH]; [exact (fun _ => I)|]. intros H. apply andb_prop in H as (A & B). split; [|auto].
  destruct a as [[] [] [] [] [] [] [] []]; try discriminate A; reflexivity.
Qed.
Lemma line_no_html p d : no_html (line p d).
Proof. destruct p; [|exact I]. split; [reflexivity|]. induction d; repeat split; assumption. Qed.
Lemma colon_no_html p : no_html (colon p).
Proof. destruct p; repeat split. Qed.
Lemma key_no_html k : safe_key k -> no_html (quoted k).
Proof. intros (<- & _). split; [reflexivity|]. apply no_html_app; [apply str_no_html|repeat split]. Qed.
Lemma text_no_html o : good_out o -> all_escaped o -> forall p d, no_html (text p d o).
Proof.
  induction o as [|b|lit|e s|l IH|ms IH] using out_induction; intros G A p d.
  - repeat split.
  - destruct b; repeat split.
  - apply num_no_html, number_num, G.
  - cbn in A. subst e. split; [reflexivity|]. apply no_html_app; [apply str_no_html|repeat split].
  - destruct l as [|x l]; [repeat split|]. rewrite text_arr. apply Forall_cons_iff in IH as (Hx & Hl). destruct G as (Gx & Gl), A as (Ax & Al).
    apply no_html_app; [repeat split|]. apply no_html_app; [apply line_no_html|]. apply no_html_app; [auto|].
    clear Hx. induction Hl as [|y l Hy _ IHl]; cbn [more_text]; [apply no_html_app; [apply line_no_html|repeat split]|].
    destruct Gl as (Gy & Gl), Al as (Ay & Al). apply (no_html_app ","); [repeat split|]. apply no_html_app; [apply line_no_html|]. apply no_html_app; [auto|]. apply IHl; assumption.
  - destruct ms as [|[k x] ms]; [repeat split|]. rewrite text_obj. apply Forall_cons_iff in IH as (Hx & Hl). destruct G as ((Sk & Gx) & Gl), A as (Ax & Al). cbn [fst snd] in *.
    apply no_html_app; [repeat split|]. apply no_html_app; [apply line_no_html|]. apply no_html_app; [apply key_no_html, Sk|]. apply no_html_app; [apply colon_no_html|].
    apply no_html_app; [auto|]. clear Hx. induction Hl as [|[k' y] ms Hy _ IHl]; cbn [more_members]; [apply no_html_app; [apply line_no_html|repeat split]|].
    destruct Gl as ((Sy & Gy) & Gl), Al as (Ay & Al). cbn [fst snd] in *. apply (no_html_app ","); [repeat split|]. apply no_html_app; [apply line_no_html|]. apply no_html_app; [apply key_no_html, Sy|].
    apply no_html_app; [apply colon_no_html|]. apply no_html_app; [auto|]. apply IHl; assumption.
Qed.

(** ** The escaping setting changes the text, not the document *)
Definition tree (r : result jerr out) : result jerr json := match r with Ok o => Ok (erase o) | Err e => Err e end.
Definition alike (e : encoded) : Prop := forall a b, tree (e a) = tree (e b).
Definition trees (r : result jerr (list (string * out))) : result jerr (list (string * json)) :=
  match r with Ok ms => Ok (map (fun m => (fst m, erase (snd m))) ms) | Err e => Err e end.
Lemma members_alike a b : forall fs vs es, Forall alike es -> trees (enc_members a fs vs es) = trees (enc_members b fs vs es).
Proof.
  induction fs as [|f fs IH]; intros [|v vs] [|e es] A; try reflexivity. apply Forall_cons_iff in A as (Ae & A). cbn [enc_members].
  destruct (json_info f) as [[n om]|]; [|apply IH, A]. destruct (om && empty_value v)%bool; [apply IH, A|].
  specialize (Ae a b). specialize (IH vs es A). destruct (e a) as [x|x], (e b) as [y|y]; try discriminate Ae; cbn [bind]; [|injection Ae as ->; reflexivity].
  destruct (enc_members a fs vs es) as [m|m], (enc_members b fs vs es) as [m'|m']; try discriminate IH; cbn [bind trees map fst snd] in *; [|exact IH].
  injection IH as ->. injection Ae as ->. reflexivity.
Qed.
Lemma struct_alike a b fs vs es : Forall alike es -> tree (enc_struct a fs vs es) = tree (enc_struct b fs vs es).
Proof.
  intros A. pose proof (members_alike a b fs vs es A) as H. unfold enc_struct.
  destruct (enc_members a fs vs es) as [m|m], (enc_members b fs vs es) as [m'|m']; try discriminate H; cbn [bind tree erase trees] in *; injection H as ->; reflexivity.
Qed.
Lemma all_alike v : forall t, alike (fun esc => jenc esc t v).
Proof.
  induction v as [s|z|b|f| |x IH| |l IH|vs IH] using val_induction; intros t a c; try reflexivity.
  - apply IH.
  - rewrite !jenc_slice. assert (H : forall e, (match enc_elements e (elem_ty t) l with Ok os => Ok (map erase os) | Err x => Err x end) = (match enc_elements a (elem_ty t) l with Ok os => Ok (map erase os) | Err x => Err x end)).
    { intros e. induction IH as [|x l Hx _ IHl]; [reflexivity|]. cbn [enc_elements]. specialize (Hx (elem_ty t) e a). cbv beta in Hx.
      destruct (jenc e (elem_ty t) x) as [o|o], (jenc a (elem_ty t) x) as [o'|o']; try discriminate Hx; cbn [bind tree] in *; [|injection Hx as ->; reflexivity].
      destruct (enc_elements e (elem_ty t) l) as [os|os], (enc_elements a (elem_ty t) l) as [os'|os']; try discriminate IHl; cbn [bind map] in *; [|exact IHl].
      injection IHl as ->. injection Hx as ->. reflexivity. }
    specialize (H c). destruct (enc_elements a (elem_ty t) l) as [o|o], (enc_elements c (elem_ty t) l) as [o'|o']; try discriminate H; cbn [bind tree erase] in *; [|injection H as ->; reflexivity].
    injection H as ->. reflexivity.
  - rewrite !jenc_struct. assert (A : Forall alike (encs vs (fields_of t))).
    { generalize (fields_of t). induction IH as [|x vs Hx _ IHv]; intros [|f fs]; cbn [encs]; constructor; auto. }
    destruct (marshal_hook t); try reflexivity. apply struct_alike, A.
Qed.
Lemma encode_alike esc esc' b : match json_encode esc b, json_encode esc' b with
  | Ok o, Ok o' => erase o = erase o' | Err e, Err e' => e = e' | _, _ => False end.
Proof.
  unfold json_encode. destruct (_ <? _)%Z; [reflexivity|]. rewrite !bom_to_json_eq. pose proof (all_alike (reify_BOM b) (TRef "BOM") esc esc') as H. cbv beta in H.
  destruct (jenc esc _ _), (jenc esc' _ _); try discriminate H; injection H as H; [exact H|subst; reflexivity].
Qed.

(** ** What is read from any text is valid UTF-8 *)
Lemma utf8_tail a s : utf8 (String a s) -> one a = true -> utf8 s.
Proof.
  intros U O. apply one_iff in O. inversion U; subst; trivial; exfalso.
  - apply two_first in H1. lia.
  - apply three_first in H1. lia.
  - apply four_first in H1. lia.
Qed.
Lemma hex_one a n : hex_value a = Some n -> one a = true /\ (n < 16)%N.
Proof.
  unfold hex_value. intros H. repeat match type of H with (if ?c then _ else _) = _ => destruct c eqn:? end; try discriminate; injection H as <-;
    repeat match goal with E : (_ && _)%bool = true |- _ => apply andb_prop in E as (? & ?) | E : (_ <=? _)%N = true |- _ => apply N.leb_le in E end;
    (split; [apply one_iff; lia|lia]).
Qed.
Lemma hex4_ok a b c d n : hex4 a b c d = Some n -> one a = true /\ one b = true /\ one c = true /\ one d = true /\ (n < 65536)%N.
Proof.
  unfold hex4. destruct (hex_value a) eqn:A; [|discriminate]. destruct (hex_value b) eqn:B; [|discriminate]. destruct (hex_value c) eqn:C; [|discriminate].
  destruct (hex_value d) eqn:D; [|discriminate]. intros [= <-]. apply hex_one in A as (? & ?), B as (? & ?), C as (? & ?), D as (? & ?). repeat split; trivial. lia.
Qed.
Lemma byte_ascii n : (n < 256)%N -> byte_of (ascii_of_N n) = n.
Proof. intros H. apply N_ascii_embedding, H. Qed.
Lemma between_ok lo hi n : (n < 256)%N -> (lo <= n <= hi)%N -> between lo hi (ascii_of_N n) = true.
Proof. intros L B. apply between_iff. rewrite byte_ascii; assumption. Qed.
Lemma cont_ok n : (n < 64)%N -> cont (ascii_of_N (0x80 + n)) = true.
Proof. intros L. apply between_ok; lia. Qed.
Lemma rune_utf8 r : (r < 0x110000)%N -> high r = false -> low r = false -> utf8 (rune_text r).
Proof.
  intros L H Lo. unfold high, low in *.
  assert (S : ~ (0xD800 <= r < 0xE000)%N).
  { intros (A & B). apply andb_false_iff in H as [H|H]; apply andb_false_iff in Lo as [Lo|Lo];
      rewrite ?N.leb_gt, ?N.ltb_ge in *; lia. }
  assert (M : forall x, (x mod 64 < 64)%N) by (intros; apply N.mod_lt; lia).
  unfold rune_text. destruct (N.ltb_spec r 0x80); [apply utf8_1; [apply one_iff; rewrite byte_ascii; lia|constructor]|].
  destruct (N.ltb_spec r 0x800).
  { apply utf8_2; [|constructor]. unfold two. rewrite cont_ok by apply M. rewrite between_ok; [reflexivity| |];
      pose proof (N.div_mod r 64 ltac:(lia)) as D; pose proof (M r) as M1; clear M; set (q := (r / 64)%N) in *; set (m := (r mod 64)%N) in *; clearbody q m; lia. }
  destruct (N.ltb_spec r 0x10000).
  - apply utf8_3; [|constructor]. unfold three. rewrite (cont_ok (r mod 64)), (cont_ok (r / 64 mod 64)) by apply M. rewrite !andb_true_r.
    pose proof (N.div_mod r 64 ltac:(lia)) as D1. pose proof (N.div_mod (r / 64) 64 ltac:(lia)) as D2. rewrite N.div_div in D2 by lia. change (64 * 64)%N with 4096%N in D2.
    pose proof (M r) as M1. pose proof (M (r / 64)%N) as M2. set (h := (r / 4096)%N) in *. set (m := (r / 64 mod 64)%N) in *. set (l := (r mod 64)%N) in *.
    assert (R : r = (4096 * h + 64 * m + l)%N) by lia. clearbody h m l. clear D1 D2.
    apply orb_true_iff. destruct (N.eq_dec h 0) as [->|N0]; [left; apply orb_true_iff; left; apply orb_true_iff; left; apply andb_true_intro; split; apply between_ok; lia|].
    destruct (N.eq_dec h 13) as [->|N13]; [left; apply orb_true_iff; right; apply andb_true_intro; split; apply between_ok; lia|].
    destruct (N.ltb_spec h 13); [left; apply orb_true_iff; left; apply orb_true_iff; right; apply between_ok; lia|right; apply between_ok; lia].
  - apply utf8_4; [|constructor]. unfold four. rewrite (cont_ok (r mod 64)), (cont_ok (r / 64 mod 64)), (cont_ok (r / 4096 mod 64)) by apply M. rewrite !andb_true_r.
    pose proof (N.div_mod r 4096 ltac:(lia)) as D1. pose proof (N.div_mod (r / 4096) 64 ltac:(lia)) as D2. rewrite N.div_div in D2 by lia. change (4096 * 64)%N with 262144%N in D2.
    pose proof (N.mod_lt r 4096 ltac:(lia)) as M1. pose proof (M (r / 4096)%N) as M2. set (h := (r / 262144)%N) in *. set (m := (r / 4096 mod 64)%N) in *. set (l := (r mod 4096)%N) in *.
    assert (R : r = (262144 * h + 4096 * m + l)%N) by lia. clearbody h m l. clear D1 D2.
    apply orb_true_iff. destruct (N.eq_dec h 0) as [->|N0]; [left; apply orb_true_iff; left; apply andb_true_intro; split; apply between_ok; lia|].
    destruct (N.eq_dec h 4) as [->|N4]; [right; apply andb_true_intro; split; apply between_ok; lia|].
    left; apply orb_true_iff; right; apply between_ok; lia.
Qed.
Lemma pair_utf8 h l : high h = true -> low l = true -> utf8 (rune_text (pair_rune h l)).
Proof.
  unfold high, low, pair_rune. rewrite !andb_true_iff, !N.leb_le, !N.ltb_lt. intros (A & B) (C & D). apply rune_utf8; unfold high, low; [lia| |];
    apply andb_false_iff; right; apply N.ltb_ge; lia.
Qed.
Lemma simple_one b c : simple_escape b = Some c -> one b = true /\ one c = true.
Proof.
  destruct b as [[] [] [] [] [] [] [] []]; intros H; try discriminate H; injection H as <-; split; reflexivity.
Qed.
Lemma replacement_utf8 : utf8 replacement.
Proof. apply utf8_3; [reflexivity|constructor]. Qed.
Lemma prepend_some p r u : prepend p r = Some u -> exists v, r = Some v /\ u = p ++ v.
Proof. destruct r as [v|]; [|discriminate]. intros [= <-]. eauto. Qed.
Lemma unescape_high a s : one a = false -> unescape (String a s) = prepend (String a "") (unescape s).
Proof. intros H. exact (high_piece a H s). Qed.
Lemma unescape_utf8 : forall n s u, (String.length s <= n)%nat -> utf8 s -> unescape s = Some u -> utf8 u.
Proof.
  induction n as [|n IH]; intros s u L U E; [destruct s; [injection E as <-; constructor|cbn in L; lia]|].
  inversion U as [Z|a s' O U' Z|a b s' O U' Z|a b c s' O U' Z|a b c d s' O U' Z]; subst s.
  - injection E as <-. constructor.
  - cbn [String.length] in L. cbn [unescape] in E. destruct (Ascii.eqb_spec a backslash) as [->|N]; cbn [negb] in E.
    2:{ apply prepend_some in E as (v & E & ->). apply utf8_1; [exact O|]. eapply IH; [|exact U'|exact E]. lia. }
    destruct s' as [|b s2]; [discriminate|]. cbn [String.length] in L. destruct (Ascii.eqb_spec b "u") as [->|N]; cbn [negb] in E.
    2:{ destruct (simple_escape b) as [c|] eqn:S; [|discriminate]. apply simple_one in S as (B & C). apply prepend_some in E as (v & E & ->).
        apply utf8_1; [exact C|]. eapply IH; [|eapply utf8_tail; eassumption|exact E]. lia. }
    apply utf8_tail in U'; [|reflexivity]. do 4 (destruct s2 as [|? s2]; [discriminate|]). cbn [String.length] in L.
    destruct (hex4 _ _ _ _) as [r|] eqn:H4 in E; [|discriminate]. apply hex4_ok in H4 as (? & ? & ? & ? & R). do 4 (apply utf8_tail in U'; [|assumption]).
    assert (Rep : prepend replacement (unescape s2) = Some u -> utf8 u).
    { intros E'. apply prepend_some in E' as (v & E' & ->). apply utf8_app; [exact replacement_utf8|]. eapply IH; [|exact U'|exact E']. lia. }
    destruct (high r) eqn:Hi.
    + destruct s2 as [|e s2]; [apply Rep, E|]. destruct s2 as [|b1 s2]; [apply Rep, E|]. destruct s2 as [|b2 s2]; [apply Rep, E|]. destruct s2 as [|b3 s2]; [apply Rep, E|]. destruct s2 as [|b4 s2]; [apply Rep, E|]. destruct s2 as [|b5 s2]; [apply Rep, E|].
      destruct (Ascii.eqb_spec e backslash) as [->|]; [|apply Rep, E]. destruct (Ascii.eqb_spec b1 "u") as [->|]; [|apply Rep, E]. cbn [andb] in E.
      destruct (hex4 b2 b3 b4 b5) as [q|] eqn:Q; [|apply Rep, E]. destruct (low q) eqn:Lo; [|apply Rep, E]. clear Rep.
      apply hex4_ok in Q as (? & ? & ? & ? & _). apply prepend_some in E as (v & E & ->). apply utf8_app; [apply pair_utf8; assumption|].
      do 2 (apply utf8_tail in U'; [|reflexivity]). do 4 (apply utf8_tail in U'; [|assumption]). eapply IH; [|exact U'|exact E]. cbn [String.length] in L. lia.
    + destruct (low r) eqn:Lo; [apply Rep, E|]. apply prepend_some in E as (v & E & ->). apply utf8_app; [apply rune_utf8; trivial; lia|]. eapply IH; [|exact U'|exact E]. lia.
  - destruct (two_high _ _ O). rewrite !unescape_high in E by assumption. apply prepend_some in E as (v & E & ->). apply prepend_some in E as (w & E & ->).
    apply utf8_2; [exact O|]. eapply IH; [|exact U'|exact E]. cbn [String.length] in L. lia.
  - destruct (three_high _ _ _ O) as (? & ? & ?). rewrite !unescape_high in E by assumption. apply prepend_some in E as (v & E & ->). apply prepend_some in E as (w & E & ->).
    apply prepend_some in E as (x & E & ->). apply utf8_3; [exact O|]. eapply IH; [|exact U'|exact E]. cbn [String.length] in L. lia.
  - destruct (four_high _ _ _ _ O) as (? & ? & ? & ?). rewrite !unescape_high in E by assumption. apply prepend_some in E as (v & E & ->). apply prepend_some in E as (w & E & ->).
    apply prepend_some in E as (x & E & ->). apply prepend_some in E as (y & E & ->). apply utf8_4; [exact O|]. eapply IH; [|exact U'|exact E]. cbn [String.length] in L. lia.
Qed.
Lemma string_utf8 s t r : parse_string s = Some (t, r) -> utf8 t.
Proof.
  unfold parse_string. destruct (scan_string s) as [[u q]|]; [|discriminate]. destruct (unescape (to_utf8 u)) as [w|] eqn:E; [|discriminate].
  intros [= <- <-]. eapply unescape_utf8; [apply le_n|apply to_utf8_ok|exact E].
Qed.
Lemma parse_utf8_all fuel :
  (forall s j r, parse_value fuel s = Some (j, r) -> doc_utf8 j) /\
  (forall s ms r, parse_members fuel s = Some (ms, r) -> list_all (fun m => doc_utf8 (snd m)) ms) /\
  (forall s l r, parse_elements fuel s = Some (l, r) -> list_all doc_utf8 l).
Proof.
  induction fuel as [|fuel (IHv & IHm & IHe)]; [repeat split; discriminate|].
  assert (Hm : forall s ms r, parse_members (S fuel) s = Some (ms, r) -> list_all (fun m => doc_utf8 (snd m)) ms).
  { intros s ms r E. cbn [parse_members] in E. destruct (skip_space s) as [|a s1]; [discriminate|]. destruct (negb _); [discriminate|].
    destruct (parse_string s1) as [[k s2]|]; [|discriminate]. destruct (skip_space s2) as [|b s3]; [discriminate|].
    destruct (Ascii.eqb_spec b ":") as [->|N]; [|destruct b as [[] [] [] [] [] [] [] []]; try discriminate E; contradiction N; reflexivity].
    destruct (parse_value fuel s3) as [[v s4]|] eqn:V; [|discriminate]. apply IHv in V.
    destruct (skip_space s4) as [|c s5]; [discriminate|].
    destruct (Ascii.eqb_spec c "}") as [->|N]; [injection E as <- <-; split; [exact V|exact I]|].
    destruct (Ascii.eqb_spec c ",") as [->|N']; [|destruct c as [[] [] [] [] [] [] [] []]; try discriminate E; contradiction].
    destruct (parse_members fuel s5) as [[ms' r']|] eqn:M; [|discriminate]. injection E as <- <-. split; [exact V|eapply IHm, M]. }
  assert (He : forall s l r, parse_elements (S fuel) s = Some (l, r) -> list_all doc_utf8 l).
  { intros s l r E. cbn [parse_elements] in E. destruct (parse_value fuel s) as [[v s1]|] eqn:V; [|discriminate]. apply IHv in V.
    destruct (skip_space s1) as [|c s2]; [discriminate|].
    destruct (Ascii.eqb_spec c "]") as [->|N]; [injection E as <- <-; split; [exact V|exact I]|].
    destruct (Ascii.eqb_spec c ",") as [->|N']; [|destruct c as [[] [] [] [] [] [] [] []]; try discriminate E; contradiction].
    destruct (parse_elements fuel s2) as [[l' r']|] eqn:M; [|discriminate]. injection E as <- <-. split; [exact V|eapply IHe, M]. }
  split; [|split; assumption].
  intros s j r E. cbn [parse_value] in E. destruct (skip_space s) as [|a s1]; [discriminate|].
  destruct (Ascii.eqb a "{").
  { assert (G : (match parse_members fuel s1 with Some (ms, r) => Some (JObj ms, r) | None => None end) = Some (j, r) -> doc_utf8 j).
    { destruct (parse_members fuel s1) as [[ms q]|] eqn:M; [|discriminate]. intros [= <- <-]. exact (IHm _ _ _ M). }
    destruct (skip_space s1) as [|c q]; [apply G, E|]. destruct (Ascii.eqb_spec c "}") as [->|N]; [injection E as <- <-; exact I|].
    destruct c as [[] [] [] [] [] [] [] []]; try (apply G, E). contradiction N; reflexivity. }
  destruct (Ascii.eqb a "[").
  { assert (G : (match parse_elements fuel s1 with Some (ms, r) => Some (JArr ms, r) | None => None end) = Some (j, r) -> doc_utf8 j).
    { destruct (parse_elements fuel s1) as [[ms q]|] eqn:M; [|discriminate]. intros [= <- <-]. exact (IHe _ _ _ M). }
    destruct (skip_space s1) as [|c q]; [apply G, E|]. destruct (Ascii.eqb_spec c "]") as [->|N]; [injection E as <- <-; exact I|].
    destruct c as [[] [] [] [] [] [] [] []]; try (apply G, E). contradiction N; reflexivity. }
  destruct (Ascii.eqb a dquote).
  { destruct (parse_string s1) as [[t q]|] eqn:P; [|discriminate]. injection E as <- <-. eapply string_utf8, P. }
  assert (Lit : forall p x y, literal p x y = Some (j, r) -> j = x) by (intros p x y; unfold literal; destruct (strip_prefix p y); [intros [= <- <-]; reflexivity|discriminate]).
  destruct (Ascii.eqb a "n"); [apply Lit in E as ->; exact I|]. destruct (Ascii.eqb a "t"); [apply Lit in E as ->; exact I|].
  destruct (Ascii.eqb a "f"); [apply Lit in E as ->; exact I|]. destruct (span_num _) as [m q]. destruct (json_number m); [|discriminate]. injection E as <- <-. exact I.
Qed.
Lemma parse_utf8 s j : parse s = Some j -> doc_utf8 j.
Proof.
  unfold parse. destruct (parse_value _ s) as [[v r]|] eqn:E; [|discriminate]. destruct (String.eqb _ _); [|discriminate]. intros [= <-]. eapply parse_utf8_all, E.
Qed.
