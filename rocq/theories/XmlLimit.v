(** The depth limit of the decoder: a higher limit changes nothing but errors about the
    depth. So whatever the depth of a document, decoding gives what it would give without
    a limit, or reports that the limit is exceeded. *)
From Verif Require Import Base Types Univ TypeTable Wt Reify Consts Numbers JsonModel XmlModel XmlBack XmlSpec XmlProofs XmlRound XmlTop XmlNeat Version.
From Coq Require Import Lia Permutation.
Local Open Scope string_scope.

Definition agrees {A} (r r' : result xerr A) : Prop := r = Err XDepth \/ r = r'.
Lemma agrees_refl {A} (r : result xerr A) : agrees r r.
Proof. right. reflexivity. Qed.
Lemma agrees_bind {A B} (r r' : result xerr A) (f f' : A -> result xerr B) : agrees r r' -> (forall x, agrees (f x) (f' x)) -> agrees (bind r f) (bind r' f').
Proof. intros [->| ->] H; [left; reflexivity|]. destruct r'; [apply H|right; reflexivity]. Qed.

Definition dle (d d' : xdecoder) : Prop := forall t n cur, agrees (d t n cur) (d' t n cur).
Inductive kle : kid -> kid -> Prop :=
| kle_text s : kle (KText s) (KText s)
| kle_elem sp l a ks ks' d d' : Forall2 kle ks ks' -> dle d d' -> kle (KElem sp l a ks d) (KElem sp l a ks' d').

Lemma kle_chardata ks ks' : Forall2 kle ks ks' -> chardata ks = chardata ks'.
Proof. induction 1 as [|k k' ks ks' K _ IH]; [reflexivity|]. destruct K; cbn [chardata]; rewrite IH; reflexivity. Qed.
Lemma at_le fs i d d' n cur : dle d d' -> agrees (dec_at fs i d n cur) (dec_at fs i d' n cur).
Proof. intros D. unfold dec_at. destruct (nth_error fs i); [|apply agrees_refl]. destruct (nth_error cur i); [|apply agrees_refl]. apply agrees_bind; [apply D|intros; apply agrees_refl]. Qed.
Lemma inside_le fs p n ks ks' : Forall2 kle ks ks' -> forall cur, agrees (dec_inside fs p n ks cur) (dec_inside fs p n ks' cur).
Proof.
  induction 1 as [|k k' ks ks' K _ IH]; intros cur; [apply agrees_refl|]. destruct K as [s|sp l a is is' d d' _ D]; cbn [dec_inside]; [apply IH|].
  apply agrees_bind; [|exact IH]. destruct (find_place (Some p) l 0 fs) as [[i|q]|]; try apply agrees_refl. apply at_le, D.
Qed.
Lemma kids_le fs n ks ks' : Forall2 kle ks ks' -> forall cur, agrees (dec_kids fs n ks cur) (dec_kids fs n ks' cur).
Proof.
  induction 1 as [|k k' ks ks' K _ IH]; intros cur; [apply agrees_refl|]. destruct K as [s|sp l a is is' d d' I D]; cbn [dec_kids]; [apply IH|].
  apply agrees_bind; [|exact IH]. destruct (find_place None l 0 fs) as [[i|q]|]; [apply at_le, D|apply inside_le, I|apply agrees_refl].
Qed.
Lemma struct_le fs sp l a ks ks' n cur : Forall2 kle ks ks' -> agrees (dec_struct fs sp l a ks n cur) (dec_struct fs sp l a ks' n cur).
Proof.
  intros K. unfold dec_struct. destruct (match xml_name fs with Some m => negb (String.eqb m l) | None => false end); [apply agrees_refl|].
  apply agrees_bind; [apply agrees_refl|]. intros c. rewrite (kle_chardata ks ks' K). apply agrees_bind; [apply kids_le, K|intros; apply agrees_refl].
Qed.
Lemma raw_le fs sp l a ks ks' : Forall2 kle ks ks' -> agrees (decode_raw fs sp l a ks) (decode_raw fs sp l a ks').
Proof. apply struct_le. Qed.
Lemma fresh_le d d' t : dle d d' -> agrees (decode_fresh d t) (decode_fresh d' t).
Proof. intros D. apply D. Qed.
Lemma each_le {S} (f : kid -> S -> result xerr S) ks ks' : (forall k k' s, kle k k' -> agrees (f k s) (f k' s)) -> Forall2 kle ks ks' -> forall s, agrees (each_kid f ks s) (each_kid f ks' s).
Proof.
  intros F. induction 1 as [|k k' ks ks' K _ IH]; intros s; [apply agrees_refl|]. pose proof (F k k' s K) as G. destruct K; cbn [each_kid]; [apply IH|]. apply agrees_bind; [exact G|exact IH].
Qed.

(** Walks go down into the children. *)
Definition walk_list {S} (enter : kid -> S -> result xerr (entered S)) (leave : string -> S -> result xerr S) : list kid -> S -> result xerr S :=
  fix go (ks : list kid) (s : S) := match ks with [] => Ok s | k' :: ks' => bind (walk enter leave k' s) (go ks') end.
Section Walk.
  Context {S : Type} (enter : kid -> S -> result xerr (entered S)) (leave : string -> S -> result xerr S).
  Hypothesis enter_le : forall k k' s, kle k k' -> agrees (enter k s) (enter k' s).
  Fixpoint walk_le k k' (K : kle k k') {struct K} : forall s, agrees (walk enter leave k s) (walk enter leave k' s).
  Proof.
    intros s. pose proof (enter_le k k' s K) as E. destruct K as [t|sp l a ks ks' d d' F D]; [apply agrees_refl|]. cbn [walk]. apply agrees_bind; [exact E|]. intros [s1|s1]; [apply agrees_refl|].
    apply agrees_bind; [|intros; apply agrees_refl]. clear E D s. revert s1. clear d d'. induction F as [|k k' ks ks' K _ IH]; intros s1; [apply agrees_refl|].
    apply agrees_bind; [apply walk_le, K|exact IH].
  Qed.
  Lemma walk_all_le ks ks' : Forall2 kle ks ks' -> forall s, agrees (walk_all enter leave ks s) (walk_all enter leave ks' s).
  Proof. induction 1 as [|k k' ks ks' K _ IH]; intros s; [apply agrees_refl|]. cbn [walk_all]. apply agrees_bind; [apply walk_le, K|exact IH]. Qed.
End Walk.

(** ** The methods *)
Ltac agree :=
  repeat first
    [ apply agrees_refl
    | apply agrees_bind; [first [apply fresh_le; assumption|apply raw_le; assumption|apply agrees_refl]|intros]
    | match goal with |- agrees (if ?b then _ else _) _ => destruct b end
    | match goal with |- agrees (match ?x with _ => _ end) _ => destruct x end ].
Lemma environment_le k k' s : kle k k' -> agrees (dec_environment k s) (dec_environment k' s).
Proof. intros [t|sp l a ks ks' d d' F D]; cbn [dec_environment]; agree. Qed.
Lemma choice_le k k' s : kle k k' -> agrees (dec_choice k s) (dec_choice k' s).
Proof. intros [t|sp l a ks ks' d d' F D]; cbn [dec_choice]; agree. Qed.
Lemma tools_le k k' s : kle k k' -> agrees (dec_tools k s) (dec_tools k' s).
Proof. intros [t|sp l a ks ks' d d' F D]; destruct s as [[x y] z]; cbn [dec_tools]; agree. Qed.
Lemma evidence_le k k' s : kle k k' -> agrees (dec_evidence k s) (dec_evidence k' s).
Proof. intros [t|sp l a ks ks' d d' F D]; destruct s as [x y]; [apply agrees_refl|]. destruct y as [|y1 [|y2 [|y3 [|y4 [|]]]]]; cbn [dec_evidence]; agree. Qed.
Lemma data_le k k' s : kle k k' -> agrees (data_enter k s) (data_enter k' s).
Proof.
  intros [t|sp l a ks ks' d d' F D]; [apply agrees_refl|]. destruct s as [vs|b us vs|vs]; [|cbn [data_enter]; agree|apply agrees_refl].
  destruct vs as [|v1 [|v2 [|v3 [|v4 [|v5 [|v6 [|v7 [|]]]]]]]]; cbn [data_enter]; agree.
Qed.
Lemma defs_le k k' s : kle k k' -> agrees (defs_enter k s) (defs_enter k' s).
Proof. intros [t|sp l a ks ks' d d' F D]; [apply agrees_refl|]. destruct s; cbn [defs_enter]; agree. Qed.

Lemma unmarshal_le m t sp l a ks ks' cur : Forall2 kle ks ks' -> agrees (unmarshal m t sp l a ks cur) (unmarshal m t sp l a ks' cur).
Proof.
  intros K. pose proof (kle_chardata _ _ K) as C. unfold unmarshal. destruct m; try apply agrees_refl; rewrite ?C; try solve [agree];
    try (apply agrees_bind; [apply each_le; [first [exact environment_le|exact choice_le|exact tools_le|exact evidence_le]|exact K]|intros; apply agrees_refl]);
    destruct cur as [| | | |p|o|vs]; try apply agrees_refl.
  - destruct vs as [|v1 [|v2 [|v3 [|v4 [|v5 [|v6 [|v7 [|]]]]]]]]; try apply agrees_refl.
    apply agrees_bind; [apply walk_all_le; [exact data_le|exact K]|intros; apply agrees_refl].
  - destruct vs as [|v1 [|v2 [|]]]; try apply agrees_refl. apply agrees_bind; [apply walk_all_le; [exact defs_le|exact K]|intros; apply agrees_refl].
Qed.
Lemma value_le sp l a ks ks' t n cur : Forall2 kle ks ks' -> agrees (dec_value sp l a ks t n cur) (dec_value sp l a ks' t n cur).
Proof.
  intros K. unfold dec_value. destruct (unmarshaler t); try (apply unmarshal_le, K). rewrite (kle_chardata _ _ K). destruct (kind_of t); try apply agrees_refl.
  apply agrees_bind; [apply struct_le, K|intros; apply agrees_refl].
Qed.

(** ** Limits *)
Section Limits.
Context (low high : Limit) (le : (@limit low <= @limit high)%N).
Lemma slice_le sp l a ks ks' t n cur : Forall2 kle ks ks' -> agrees (@dec_slice low sp l a ks t n cur) (@dec_slice high sp l a ks' t n cur).
Proof.
  intros K. unfold dec_slice. destruct (unmarshaler t); try (apply value_le, K). destruct (kind_of t); try (apply value_le, K).
  destruct (N.leb_spec (@limit low) (N.succ n)); [left; reflexivity|]. rewrite (proj2 (N.leb_gt _ _)) by lia. apply agrees_bind; [apply value_le, K|intros; apply agrees_refl].
Qed.
Lemma elem_le sp l a ks ks' : Forall2 kle ks ks' -> dle (@dec_elem low sp l a ks) (@dec_elem high sp l a ks').
Proof.
  intros K t n cur. unfold dec_elem. destruct (N.leb_spec (@limit low) n); [left; reflexivity|]. rewrite (proj2 (N.leb_gt _ _)) by lia.
  destruct (kind_of t); try (apply slice_le, K). apply agrees_bind; [apply slice_le, K|intros; apply agrees_refl].
Qed.
Lemma waiting_le x : kle (@waiting low x) (@waiting high x).
Proof.
  induction x as [s|sp l a ks IH] using xml_induction; [constructor|]. cbn [waiting].
  assert (K : Forall2 kle (map (@waiting low) ks) (map (@waiting high) ks)) by (induction IH; constructor; assumption).
  constructor; [exact K|apply elem_le, K].
Qed.
Theorem bom_le entries x b : agrees (@bom_within low entries x b) (@bom_within high entries x b).
Proof.
  unfold bom_within. apply agrees_bind; [|intros; apply agrees_refl]. unfold xdec. pose proof (waiting_le x) as W. destruct W as [s|sp l a ks ks' d d' _ D]; [apply agrees_refl|apply D].
Qed.
End Limits.

(** Without any bound. *)
Theorem bom_round_or_depth b els pretty entries : bom_sane b -> bom_to_xml b = Ok els -> Permutation entries xmlNamespaces ->
  exists e, els = [e] /\ (bom_of_xml entries (xml_seen pretty e) zero_BOM = Ok (xml_back b) \/ bom_of_xml entries (xml_seen pretty e) zero_BOM = Err XDepth).
Proof.
  intros S E P. destruct (bom_round_trip b els pretty entries S E P) as (e & Q & _). exists e. split; [exact Q|].
  set (high := (N.succ_pos (tall e) + 5000)%positive : Limit).
  destruct (@bom_round_within high b els pretty entries S E P) as (e2 & Q2 & R). rewrite Q in Q2. injection Q2 as <-.
  assert (H : @bom_within high entries (xml_seen pretty e) zero_BOM = Ok (xml_back b)).
  { apply R. unfold limit, half, high. pose proof (N.succ_pos_spec (tall e)). lia. }
  destruct (bom_le go_limit high) with (entries := entries) (x := xml_seen pretty e) (b := zero_BOM) as [D|D].
  - unfold limit, half, high, go_limit. lia.
  - right. exact D.
  - left. rewrite <- H. exact D.
Qed.
