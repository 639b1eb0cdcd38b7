(** What is true of everything the JSON encoder writes. *)
From Verif Require Import Base Types Univ TypeTable Wt Consts LinkModel Version Numbers NumbersProofs Utf8 Utf8Proofs JsonModel JsonBack JsonProofs JsonHooks JsonRound JsonSpec JsonErrors ReifyBase GobProofs JsonDecode.
From Coq Require Import Lia.
Local Open Scope string_scope.

(** The keys of one Go struct. *)
Definition key_names (fs : list field) : list string := flat_map (fun f => match json_info f with Some (n, _) => [n] | None => [] end) fs.
Definition all_keys : list string :=
  (["organization"; "individual"; "ref"] ++ flat_map (fun d => match snd d with DStruct fs => key_names fs | DAlias _ => [] end) defs)%list.
Definition good_keys (ks : list string) : Prop := Forall (fun k => In k all_keys) ks /\ NoDup (map fold_name ks).

Fixpoint nodupb (l : list string) : bool := match l with [] => true | x :: l' => negb (existsb (String.eqb x) l') && nodupb l' end.
Lemma nodupb_ok l : nodupb l = true -> NoDup l.
Proof.
  induction l as [|x l IH]; intros H; [constructor|]. cbn [nodupb] in H. apply andb_prop in H as (H & H'). constructor; [|apply IH, H'].
  intros I. apply Bool.negb_true_iff in H. assert (E : existsb (String.eqb x) l = true) by (apply existsb_exists; exists x; split; [exact I|apply String.eqb_refl]). congruence.
Qed.
Lemma defs_names : forallb (fun d => match snd d with DStruct fs => nodupb (map fold_name (key_names fs)) | DAlias _ => true end) defs = true.
Proof. vm_compute. reflexivity. Qed.
Lemma good_names fs n : In (n, DStruct fs) defs -> good_keys (key_names fs).
Proof.
  intros I. split.
  - rewrite Forall_forall. intros k Hk. unfold all_keys. apply in_or_app. right. apply in_flat_map. exists (n, DStruct fs). split; assumption.
  - pose proof defs_names as D. rewrite forallb_forall in D. specialize (D _ I). apply nodupb_ok, D.
Qed.
Lemma good_fields t : good_keys (key_names (fields_of t)).
Proof.
  unfold fields_of. destruct (kind_of t) eqn:K; try (split; constructor). apply kind_struct_in in K as (n & _ & I). eapply good_names, I.
Qed.
Lemma good_sub ks ks' : good_keys ks -> (forall k, In k ks' -> In k ks) -> NoDup (map fold_name ks') -> good_keys ks'.
Proof. intros (A & _) S N. split; [|exact N]. rewrite Forall_forall in *. auto. Qed.

(** [ks] with some left out. *)
Inductive sublist {A} : list A -> list A -> Prop :=
| sub_nil : sublist [] []
| sub_keep x l m : sublist l m -> sublist (x :: l) (x :: m)
| sub_drop x l m : sublist l m -> sublist l (x :: m).
Lemma sub_nil_l {A} (m : list A) : sublist [] m.
Proof. induction m; constructor; assumption. Qed.
Lemma sub_in {A} (l m : list A) : sublist l m -> forall x, In x l -> In x m.
Proof. induction 1; intros y H'; [assumption| |right; auto]. destruct H' as [->|H']; [left; reflexivity|right; auto]. Qed.
Lemma sub_map {A B} (f : A -> B) l m : sublist l m -> sublist (map f l) (map f m).
Proof. induction 1; constructor; assumption. Qed.
Lemma sub_nodup {A} (l m : list A) : sublist l m -> NoDup m -> NoDup l.
Proof.
  induction 1; intros N; trivial; inversion N; subst; auto. constructor; auto. intros I. apply H2. eapply sub_in; eassumption.
Qed.
Lemma good_sublist ks ks' : sublist ks' ks -> good_keys ks -> good_keys ks'.
Proof. intros S G. eapply good_sub; [exact G|apply sub_in, S|]. eapply sub_nodup; [apply sub_map, S|apply G]. Qed.

Section Everywhere.
  Variable P : bool -> out -> Prop.
  Hypothesis P_up : forall esc o, P true o -> P esc o.
  Hypothesis P_null : forall esc, P esc ONull.
  Hypothesis P_bool : forall esc b, P esc (OBool b).
  Hypothesis P_str : forall esc s, P esc (OStr esc s).
  Hypothesis P_int : forall esc z, P esc (ONum (format_int z)).
  Hypothesis P_float : forall esc neg m e, P esc (ONum (json_float neg m e)).
  Hypothesis P_arr : forall esc l, Forall (P esc) l -> P esc (OArr l).
  Hypothesis P_obj : forall esc ms, Forall (fun m => P esc (snd m)) ms -> good_keys (map fst ms) -> P esc (OObj ms).

  Definition gives (e : encoded) : Prop := forall esc o, e esc = Ok o -> P esc o.

  Lemma members_all esc : forall fs vs es ms, Forall gives es -> enc_members esc fs vs es = Ok ms ->
    Forall (fun m => P esc (snd m)) ms /\ sublist (map fst ms) (key_names fs).
  Proof using P.
    induction fs as [|f fs IH]; intros vs es ms G E; [injection E as <-; split; constructor|].
    destruct vs as [|v vs]; [injection E as <-; split; [constructor|apply sub_nil_l]|].
    destruct es as [|e es]; [injection E as <-; split; [constructor|apply sub_nil_l]|].
    apply Forall_cons_iff in G as (Ge & G). cbn [enc_members] in E. cbn [key_names flat_map]. fold (key_names fs).
    destruct (json_info f) as [[n om]|]; [|destruct (IH _ _ _ G E) as (A & B); split; [exact A|exact B]].
    destruct (om && empty_value v)%bool; [destruct (IH _ _ _ G E) as (A & B); split; [exact A|constructor; exact B]|].
    apply bind_ok in E as (o & Eo & E). apply bind_ok in E as (ms' & Em & E). injection E as <-.
    destruct (IH _ _ _ G Em) as (A & B). split; constructor; trivial. exact (Ge _ _ Eo).
  Qed.
  Lemma struct_all esc fs vs es o : good_keys (key_names fs) -> Forall gives es -> enc_struct esc fs vs es = Ok o -> P esc o.
  Proof using P P_obj.
    intros K G E. apply bind_ok in E as (ms & Em & E). injection E as <-. destruct (members_all _ _ _ _ _ G Em) as (A & B).
    apply P_obj; [exact A|]. eapply good_sublist; eassumption.
  Qed.
  Lemma empty_all esc : P esc (OObj []).
  Proof using P P_obj. apply P_obj; [constructor|split; constructor]. Qed.
  Lemma one_all esc k o : In k all_keys -> P esc o -> P esc (OObj [(k, o)]).
  Proof using P P_obj. intros I H. apply P_obj; [apply Forall_cons; [exact H|apply Forall_nil]|]. split; [apply Forall_cons; [exact I|apply Forall_nil]|]. constructor; [intros []|constructor]. Qed.

  Lemma marshal_all h fs vs es o : good_keys (key_names fs) -> Forall gives es -> marshal h fs vs es = Ok o -> P true o.
  Proof using P P_obj P_null.
    intros K G E. unfold marshal in E.
    assert (K1 : In "organization" all_keys) by (left; reflexivity). assert (K2 : In "individual" all_keys) by (right; left; reflexivity).
    assert (K3 : In "ref" all_keys) by (right; right; left; reflexivity).
    assert (T1 : good_keys (key_names fields_mlDatasetChoiceRefJSON)) by exact (good_fields (TRef "mlDatasetChoiceRefJSON")).
    assert (T2 : good_keys (key_names fields_toolsChoiceJSON)) by exact (good_fields (TRef "toolsChoiceJSON")).
    repeat match goal with H : Forall gives (_ :: _) |- _ => apply Forall_cons_iff in H as (? & H) end.
    destruct h; try discriminate E; destruct vs as [|a [|b [|c vs]]]; try discriminate E.
    all: try (destruct es as [|ea [|eb [|ec [|ed es]]]]; try discriminate E).
    all: repeat match goal with H : Forall gives (_ :: _) |- _ => apply Forall_cons_iff in H as (? & H) end.
    all: repeat match type of E with (if ?c then _ else _) = _ => destruct c; try discriminate E end.
    all: try (injection E as <-; solve [apply empty_all|apply P_null]).
    all: try (match goal with H : gives ?e, Q : ?e true = Ok _ |- _ => exact (H _ _ Q) end).
    all: try (eapply struct_all; [| |exact E]; [assumption|repeat (apply Forall_cons; [assumption|]); first [assumption|apply Forall_nil]]; fail).
    all: try (apply bind_ok in E as (o' & Eo & E); injection E as <-; apply one_all; [assumption|]; match goal with H : gives ?e, Q : ?e true = Ok _ |- _ => exact (H _ _ Q) end).
  Qed.

  Lemma jenc_all v : forall t esc o, jenc esc t v = Ok o -> P esc o.
  Proof using P P_up P_null P_bool P_str P_int P_float P_arr P_obj.
    induction v as [s|z|b|f| |x IH| |l IH|vs IH] using val_induction; intros t esc o E.
    - injection E as <-. apply P_str.
    - cbn [jenc] in E. destruct (marshal_hook t); injection E as <-; auto.
    - injection E as <-. apply P_bool.
    - cbn [jenc] in E. destruct f; try discriminate E. injection E as <-. apply P_float.
    - injection E as <-. apply P_null.
    - exact (IH _ _ _ E).
    - injection E as <-. apply P_null.
    - rewrite jenc_slice in E. apply bind_ok in E as (os & El & E). injection E as <-. apply P_arr.
      clear -IH El. revert os El. induction IH as [|x l Hx _ IHl]; intros os E; cbn [enc_elements] in E; [injection E as <-; constructor|].
      apply bind_ok in E as (o & Eo & E). apply bind_ok in E as (os' & Es & E). injection E as <-. constructor; [exact (Hx _ _ _ Eo)|auto].
    - rewrite jenc_struct in E. pose proof (good_fields t) as G.
      assert (Es : Forall gives (encs vs (fields_of t))).
      { clear -IH. generalize (fields_of t). induction IH as [|x vs Hx _ IHv]; intros [|f fs]; cbn [encs]; constructor; [|apply IHv]. intros esc o E. exact (Hx _ _ _ E). }
      destruct (marshal_hook t); try (apply scanned_ok in E; apply P_up; eapply marshal_all; eassumption). eapply struct_all; eassumption.
  Qed.
End Everywhere.

(** Everything written is valid UTF-8, and no key occurs twice in an object. *)
Fixpoint plain_ascii (s : string) : bool := match s with "" => true | String a s' => one a && plain_ascii s' end.
Lemma ascii_utf8 s : plain_ascii s = true -> utf8 s.
Proof. induction s as [|a s IH]; intros H; [constructor|]. apply andb_prop in H as (A & B). apply utf8_1; auto. Qed.
Lemma ascii_app a b : plain_ascii a = true -> plain_ascii b = true -> plain_ascii (a ++ b) = true.
Proof. induction a as [|x a IH]; intros A B; [exact B|]. apply andb_prop in A as (A1 & A2). cbn [append plain_ascii]. rewrite A1. auto. Qed.
Lemma digit_one a : is_digit a = true -> one a = true.
Proof. unfold is_digit, in_range, one, byte_of. intros H. apply andb_prop in H as (_ & H). apply N.leb_le in H. apply N.ltb_lt. cbn in H. lia. Qed.
Lemma digits_ascii s : digits s = true -> plain_ascii s = true.
Proof. induction s as [|a s IH]; intros D; [reflexivity|]. cbn [digits plain_ascii] in *. apply andb_prop in D as (A & B). rewrite (digit_one a A). auto. Qed.
Lemma format_ascii z : plain_ascii (format_int z) = true.
Proof.
  destruct (Z.ltb_spec z 0) as [L|L].
  - rewrite format_int_neg by exact L. cbn [plain_ascii]. apply digits_ascii, format_int_digits. lia.
  - apply digits_ascii, format_int_digits, L.
Qed.
Lemma substring_ascii s : plain_ascii s = true -> forall n m, plain_ascii (String.substring n m s) = true.
Proof.
  induction s as [|a s IH]; intros A n m; [destruct n, m; reflexivity|]. pose proof A as A'. apply andb_prop in A as (A1 & A2).
  destruct n as [|n]; [destruct m as [|m]; [reflexivity|]|]; cbn [String.substring]; [cbn [plain_ascii]; rewrite A1; apply IH; exact A2|apply IH; exact A2].
Qed.
Lemma version_utf8 z : utf8 (SpecVersion_String z).
Proof.
  apply ascii_utf8. unfold SpecVersion_String, stringer. destruct (_ || _)%bool.
  - apply ascii_app; [reflexivity|]. apply ascii_app; [reflexivity|]. apply ascii_app; [apply format_ascii|reflexivity].
  - unfold substr. apply substring_ascii. reflexivity.
Qed.
Lemma written_utf8 esc t v o : jenc esc t v = Ok o -> doc_utf8 (erase o).
Proof.
  apply (jenc_all (fun _ o => doc_utf8 (erase o))); cbn [erase doc_utf8]; trivial.
  - intros _ s. apply to_utf8_ok.
  - intros _ l F. rewrite list_all_forall, Forall_map. exact F.
  - intros _ ms F _. rewrite list_all_forall, Forall_map. exact F.
Qed.
Lemma written_unique esc t v o : jenc esc t v = Ok o -> doc_unique (erase o).
Proof.
  apply (jenc_all (fun _ o => doc_unique (erase o))); cbn [erase doc_unique]; trivial.
  - intros _ l F. rewrite list_all_forall, Forall_map. exact F.
  - intros _ ms F (_ & N). split; [rewrite map_map in *; exact N|]. rewrite list_all_forall, Forall_map. exact F.
Qed.
