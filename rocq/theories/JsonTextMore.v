(** Further facts about the text of encoded BOMs; sessions, writers and readers. *)
From Verif Require Import Base Types Univ TypeTable Wt Reify ReifyBase Consts LinkModel Version ConvertModel ConvertSpec ConvertPropProofs Numbers NumbersProofs Utf8 Utf8Proofs GobModel GobSpec GobProofs
  JsonModel JsonBack JsonProofs JsonSpec JsonOut JsonBom JsonChoices JsonText JsonTextProofs JsonTextRound JsonTextBom JsonIO.
From Coq Require Import Lia.
Local Open Scope string_scope.

Section Closed.
  Variable Q : string -> Prop.
  Variable pretty : bool.
  Hypothesis Q_app : forall a b, Q a -> Q b -> Q (a ++ b).
  Hypothesis Q_fixed : Forall Q [""; "null"; "true"; "false"; "["; "]"; "{"; "}"; ","; String dquote ""; "[]"; "{}"].
  Hypothesis Q_line : forall d, Q (line pretty d).
  Hypothesis Q_colon : Q (colon pretty).
  Hypothesis Q_num : forall s, all_num s = true -> Q s.
  Hypothesis Q_str : forall e s, Q (str_text e s).
  Lemma closed_fixed s : In s [""; "null"; "true"; "false"; "["; "]"; "{"; "}"; ","; String dquote ""; "[]"; "{}"] -> Q s.
  Proof using Q_fixed. intros I. rewrite Forall_forall in Q_fixed. apply Q_fixed, I. Qed.
  Ltac fixed := apply closed_fixed; cbn; intuition reflexivity.
  Lemma closed_quoted e s : Q (quoted (str_text e s)).
  Proof using Q_fixed Q_app Q_str. apply (Q_app (String dquote "") (str_text e s ++ String dquote "")); [fixed|]. apply Q_app; [apply Q_str|fixed]. Qed.
  Lemma closed_key k : safe_key k -> Q (quoted k).
  Proof using Q_fixed Q_app Q_str. intros (<- & _). apply closed_quoted. Qed.
  Lemma closed_text o : good_out o -> forall d, Q (text pretty d o).
  Proof using All.
    induction o as [|b|lit|e s|l IH|ms IH] using out_induction; intros G d.
    - fixed.
    - destruct b; fixed.
    - apply Q_num, number_num, G.
    - apply closed_quoted.
    - destruct l as [|x l]; [fixed|]. rewrite text_arr. apply Forall_cons_iff in IH as (Hx & Hl). destruct G as (Gx & Gl).
      apply Q_app; [fixed|]. apply Q_app; [apply Q_line|]. apply Q_app; [auto|].
      clear Hx. induction Hl as [|y l Hy _ IHl]; cbn [more_text]; [apply Q_app; [apply Q_line|fixed]|].
      destruct Gl as (Gy & Gl). apply (Q_app ","); [fixed|]. apply Q_app; [apply Q_line|]. apply Q_app; [auto|]. apply IHl; assumption.
    - destruct ms as [|[k x] ms]; [fixed|]. rewrite text_obj. apply Forall_cons_iff in IH as (Hx & Hl). destruct G as ((Sk & Gx) & Gl). cbn [fst snd] in *.
      apply Q_app; [fixed|]. apply Q_app; [apply Q_line|]. apply Q_app; [apply closed_key, Sk|]. apply Q_app; [apply Q_colon|].
      apply Q_app; [auto|]. clear Hx. induction Hl as [|[k' y] ms Hy _ IHl]; cbn [more_members]; [apply Q_app; [apply Q_line|fixed]|].
      destruct Gl as ((Sy & Gy) & Gl). cbn [fst snd] in *. apply (Q_app ","); [fixed|]. apply Q_app; [apply Q_line|]. apply Q_app; [apply closed_key, Sy|].
      apply Q_app; [apply Q_colon|]. apply Q_app; [auto|]. apply IHl; assumption.
  Qed.
End Closed.

Lemma str_text_utf8 e s : utf8 (str_text e s).
Proof. eapply run_utf8, run_str. Qed.
Lemma num_utf8 s : all_num s = true -> utf8 s.
Proof.
  intros H. apply ascii_utf8. induction s as [|a s IH]; [reflexivity|]. apply andb_prop in H as (A & B). cbn [plain_ascii]. rewrite (IH B), Bool.andb_true_r.
  destruct a as [[] [] [] [] [] [] [] []]; try discriminate A; reflexivity.
Qed.
Lemma line_utf8 p d : utf8 (line p d).
Proof. destruct p; [|constructor]. apply utf8_1; [reflexivity|]. induction d; [constructor|]. cbn [spaces]. apply utf8_1; [reflexivity|]. apply utf8_1; [reflexivity|assumption]. Qed.
Lemma text_utf8 o : good_out o -> forall p d, utf8 (text p d o).
Proof.
  intros G p d. apply closed_text; trivial.
  - exact utf8_app.
  - repeat constructor.
  - apply line_utf8.
  - destruct p; repeat constructor.
  - exact num_utf8.
  - exact str_text_utf8.
Qed.

Fixpoint has_byte (a : ascii) (s : string) : bool := match s with "" => false | String b s' => Ascii.eqb a b || has_byte a s' end.
Lemma has_byte_app a x y : has_byte a (x ++ y) = (has_byte a x || has_byte a y)%bool.
Proof. induction x as [|b x IH]; [reflexivity|]. cbn. rewrite IH. apply orb_assoc. Qed.
Lemma str_no_newline e s : has_byte newline (str_text e s) = false.
Proof.
  pose proof (run_str e s) as R. revert R. generalize (to_utf8 s) (str_text e s). intros u t R.
  assert (H : forall a, one a = false -> Ascii.eqb newline a = false) by (intros a; destruct a as [[] [] [] [] [] [] [] []]; try discriminate; reflexivity).
  induction R as [|a s u t O _ IH|a s u t _ IH|a b s u t O _ IH|a b c s u t O _ IH|a b c d s u t O _ IH]; rewrite ?has_byte_app; cbn [has_byte].
  - reflexivity.
  - rewrite IH, orb_false_r. revert O. destruct a as [[] [] [] [] [] [] [] []]; try discriminate; intros _; destruct e; reflexivity.
  - rewrite IH. reflexivity.
  - destruct (two_high _ _ O). rewrite !H by assumption. exact IH.
  - rewrite IH, orb_false_r. unfold three_text. destruct (_ && _ && _)%bool; [destruct (byte_of c =? 168)%N; reflexivity|].
    destruct (three_high _ _ _ O) as (? & ? & ?). cbn [has_byte]. rewrite !H by assumption. reflexivity.
  - destruct (four_high _ _ _ _ O) as (? & ? & ? & ?). rewrite !H by assumption. exact IH.
Qed.
Lemma text_one_line o : good_out o -> forall d, has_byte newline (text false d o) = false.
Proof.
  intros G d. apply (closed_text (fun s => has_byte newline s = false) false); trivial.
  - intros a b A B. rewrite has_byte_app, A, B. reflexivity.
  - repeat constructor.
  - intros s. induction s as [|a s IH]; [reflexivity|]. intros H. apply andb_prop in H as (A & B). cbn [has_byte]. rewrite (IH B), orb_false_r.
    destruct a as [[] [] [] [] [] [] [] []]; try discriminate A; reflexivity.
  - intros e s. apply str_no_newline.
Qed.

(** ** Whole BOMs *)
Lemma text_inv pretty esc b t : json_encode_text pretty esc b = Ok t ->
  exists o, json_encode esc b = Ok o /\ good_out o /\ t = text pretty 0 o ++ String newline "" /\ parse t = Some (erase o) /\ (pretty = true -> too_deep (erase o) = false).
Proof.
  unfold json_encode_text. destruct (json_encode esc b) as [o|] eqn:E; [|discriminate]. destruct (encode_text pretty o) as [t'|] eqn:T; [|discriminate].
  intros [= <-]. exists o. pose proof (bom_parse _ _ _ _ _ E T) as P. apply encode_writes in E as (E' & _). rewrite bom_to_json_eq in E'. apply written_good in E'.
  unfold encode_text in T. destruct (pretty && too_deep (erase o))%bool eqn:D; [discriminate|]. injection T as <-. repeat split; trivial.
  intros ->. exact D.
Qed.
Lemma unmarshal_ok s b c : unmarshal_bom s b = Ok c -> exists j, parse s = Some j /\ doc_utf8 j /\ bom_of_json j b = Ok c.
Proof. unfold unmarshal_bom. destruct (parse s) as [j|] eqn:P; [|discriminate]. intros E. exists j. split; [reflexivity|]. split; [eapply parse_utf8, P|exact E]. Qed.
Lemma unmarshal_parse s j b : parse s = Some j -> unmarshal_bom s b = bom_of_json j b.
Proof. intros P. unfold unmarshal_bom. rewrite P. reflexivity. Qed.

(** The escaping and the layout change nothing that a reader of the document sees. *)
Lemma options_alike p1 e1 p2 e2 b t1 t2 : json_encode_text p1 e1 b = Ok t1 -> json_encode_text p2 e2 b = Ok t2 -> parse t1 = parse t2.
Proof.
  intros E1 E2. apply text_inv in E1 as (o1 & E1 & _ & _ & -> & _). apply text_inv in E2 as (o2 & E2 & _ & _ & -> & _).
  pose proof (encode_alike e1 e2 b) as H. rewrite E1, E2 in H. rewrite H. reflexivity.
Qed.
Lemma compact_fails e1 e2 b : (exists t, json_encode_text false e1 b = Ok t) <-> (exists t, json_encode_text false e2 b = Ok t).
Proof.
  assert (H : forall e1 e2, (exists t, json_encode_text false e1 b = Ok t) -> (exists t, json_encode_text false e2 b = Ok t)).
  { clear. intros e1 e2 (t & E). apply text_inv in E as (o & E & _). pose proof (encode_alike e1 e2 b) as H. rewrite E in H. unfold json_encode_text.
    destruct (json_encode e2 b) as [o'|]; [|contradiction]. eexists. reflexivity. }
  split; apply H.
Qed.

(** ** Sessions *)
Lemma session_app calls : forall j calls', json_session j (calls ++ calls') =
  (let (j1, r1) := json_session j calls in let (j2, r2) := json_session j1 calls' in (j2, r1 ++ r2)%list).
Proof.
  induction calls as [|[c w] calls IH]; intros j calls'; cbn [app json_session].
  - destruct (json_session j calls'). reflexivity.
  - destruct (json_call w j c) as [[j1 out] err]. rewrite IH. destruct (json_session j1 calls) as [j2 r2]. destruct (json_session j2 calls'). reflexivity.
Qed.

(** ** Readers *)
Fixpoint bytes_of (ds : list delivery) : string :=
  match ds with [] => "" | More p :: ds' => p ++ bytes_of ds' | Last p :: _ | Broken p _ :: _ => p end.
Fixpoint ending (ds : list delivery) : option (option string) :=
  match ds with [] => None | More _ :: ds' => ending ds' | Last _ :: _ => Some None | Broken _ e :: _ => Some (Some e) end.
Lemma read_all_spec ds : forall s, read_all s ds =
  match ending ds with None => None | Some None => Some (Ok (s ++ bytes_of ds)) | Some (Some e) => Some (Err e) end.
Proof.
  induction ds as [|[p|p|p e] ds IH]; intros s; cbn [read_all ending bytes_of]; try reflexivity. rewrite IH.
  destruct (ending ds) as [[e|]|]; trivial. rewrite append_assoc. reflexivity.
Qed.

(** ** Options *)
Lemma session_cons j c w calls : fst (json_session j ((c, w) :: calls)) = fst (json_session (fst (fst (json_call w j c))) calls).
Proof. cbn [json_session]. destruct (json_call w j c) as [[j1 out] err]. cbn [fst]. destruct (json_session j1 calls). reflexivity. Qed.
Lemma call_pretty w j c : (forall p, c <> SetPretty p) -> je_pretty (fst (fst (json_call w j c))) = je_pretty j.
Proof. intros N. destruct c as [p|e|b|b sv]; cbn [json_call]; [elim (N p); reflexivity|reflexivity|destruct (encode_to _ _); reflexivity..]. Qed.
Lemma call_escape w j c : (forall p, c <> SetEscapeHTML p) -> je_escape (fst (fst (json_call w j c))) = je_escape j.
Proof. intros N. destruct c as [p|e|b|b sv]; cbn [json_call]; [reflexivity|elim (N e); reflexivity|destruct (encode_to _ _); reflexivity..]. Qed.
Lemma keeps_pretty calls : (forall p w, ~ In (SetPretty p, w) calls) -> forall j, je_pretty (fst (json_session j calls)) = je_pretty j.
Proof.
  induction calls as [|[c w] calls IH]; intros N j; [reflexivity|]. rewrite session_cons, IH by (intros p w' I; apply (N p w'); right; exact I).
  apply call_pretty. intros p ->. apply (N p w). left. reflexivity.
Qed.
Lemma keeps_escape calls : (forall p w, ~ In (SetEscapeHTML p, w) calls) -> forall j, je_escape (fst (json_session j calls)) = je_escape j.
Proof.
  induction calls as [|[c w] calls IH]; intros N j; [reflexivity|]. rewrite session_cons, IH by (intros p w' I; apply (N p w'); right; exact I).
  apply call_escape. intros p ->. apply (N p w). left. reflexivity.
Qed.
Lemma session_fst_app calls calls' j : fst (json_session j (calls ++ calls')) = fst (json_session (fst (json_session j calls)) calls').
Proof. rewrite session_app. destruct (json_session j calls) as [j1 r1]. cbn [fst]. destruct (json_session j1 calls'). reflexivity. Qed.
Lemma last_pretty before after v w : (forall p w', ~ In (SetPretty p, w') after) ->
  je_pretty (fst (json_session new_json_encoder (before ++ (SetPretty v, w) :: after))) = v.
Proof. intros N. rewrite session_fst_app, session_cons, keeps_pretty by exact N. reflexivity. Qed.
Lemma last_escape before after v w : (forall p w', ~ In (SetEscapeHTML p, w') after) ->
  je_escape (fst (json_session new_json_encoder (before ++ (SetEscapeHTML v, w) :: after))) = v.
Proof. intros N. rewrite session_fst_app, session_cons, keeps_escape by exact N. reflexivity. Qed.

Lemma version_text_eq pretty esc sv b c : copy b = Ok c -> json_encode_version_text pretty esc sv b = json_encode_text pretty esc (convert sv c).
Proof. intros C. unfold json_encode_version_text, copyAndConvert. rewrite C. reflexivity. Qed.
