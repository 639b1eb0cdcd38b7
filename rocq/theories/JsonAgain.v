(** Decoding a document into what decoding it has given changes nothing. *)
From Verif Require Import Base Types Univ TypeTable Wt LinkModel Numbers Reify ReifyFacts JsonModel JsonBack JsonProofs JsonHooks JsonRound JsonSpec JsonDecode ReifyBase JsonBom.
From Coq Require Import Lia.
Local Open Scope string_scope.

Definition again (d : decoder) : Prop := forall t cur v, d t cur = DVal v None -> d t v = DVal v None.
Definition shape_again (s : shape) : Prop :=
  match s with
  | SArr ds => Forall again ds
  | SObj ms => Forall (fun m => again (m_dec (snd m))) ms /\ NoDup (map (fun m => fold_name (fst m)) ms)
  | _ => True
  end.
Lemma first_none a b : first_error a b = None -> a = None /\ b = None.
Proof. destruct a, b; cbn; intros H; try discriminate H; auto. Qed.

Lemma elements_again ds t : Forall again ds -> forall cur l, dec_elements ds t cur = inl (l, None) -> dec_elements ds t l = inl (l, None).
Proof.
  induction 1 as [|d ds A _ IH]; intros cur l H; cbn [dec_elements] in *; [injection H as <-; reflexivity|].
  destruct (d t (hd (zero_of t) cur)) as [v e|] eqn:D; [|discriminate H]. destruct (dec_elements ds t (tl cur)) as [(l' & e')|] eqn:E; [|discriminate H].
  injection H as <- Q. apply first_none in Q as (-> & ->). cbn [hd tl]. rewrite (A _ _ _ D), (IH _ _ E). reflexivity.
Qed.

(** The members find what they would give. *)
Definition stands (fs : list field) (cur : list val) (p : string * member) : Prop :=
  forall i f c, find_field fs (fst p) = Some i -> nth_error fs i = Some f -> nth_error cur i = Some c -> m_dec (snd p) (f_ty f) c = DVal c None.
Lemma set_same (i : nat) : forall (l : list val) c, nth_error l i = Some c -> set_nth i c l = l.
Proof. induction i as [|i IH]; intros [|x l] c H; try discriminate; cbn in *; [congruence|]. f_equal. apply IH, H. Qed.
Lemma members_stand fs cur : forall ms, Forall (stands fs cur) ms -> dec_members ms fs cur = inl (cur, None).
Proof.
  induction 1 as [|(k & m) ms S _ IH]; [reflexivity|]. cbn [dec_members]. destruct (find_field fs k) as [i|] eqn:F; [|exact IH].
  destruct (nth_error fs i) as [f|] eqn:N; [|exact IH]. destruct (nth_error cur i) as [c|] eqn:C; [|exact IH].
  pose proof (S i f c F N C) as Z. cbn [snd] in Z. rewrite Z, (set_same i cur c C), IH. reflexivity.
Qed.
Lemma untouched fs i : forall ms cur cur' err, (forall p, In p ms -> find_field fs (fst p) <> Some i) -> dec_members ms fs cur = inl (cur', err) -> nth_error cur' i = nth_error cur i.
Proof.
  assert (O : forall (i j : nat) (v : val) l, i <> j -> nth_error (set_nth i v l) j = nth_error l j) by (clear; induction i as [|i IH]; intros [|j] v [|x l] H; cbn; auto; congruence).
  induction ms as [|(k & m) ms IH]; intros cur cur' err N H; cbn [dec_members] in H; [injection H as <- <-; reflexivity|].
  assert (N' : forall p, In p ms -> find_field fs (fst p) <> Some i) by (intros p I; apply N; right; exact I).
  destruct (find_field fs k) as [j|] eqn:F; [|exact (IH _ _ _ N' H)]. destruct (nth_error fs j) as [f|]; [|exact (IH _ _ _ N' H)]. destruct (nth_error cur j) as [c|]; [|exact (IH _ _ _ N' H)].
  destruct (m_dec m (f_ty f) c) as [v e|]; [|discriminate H]. destruct (dec_members ms fs (set_nth j v cur)) as [(c' & e')|] eqn:D; [|discriminate H]. injection H as <- <-.
  rewrite (IH _ _ _ N' D). apply O. intros ->. apply (N (k, m)); [left; reflexivity|exact F].
Qed.
Lemma members_stands fs : forall ms, NoDup (map (fun m : string * member => fold_name (fst m)) ms) -> Forall (fun m => again (m_dec (snd m))) ms ->
  forall cur cur', dec_members ms fs cur = inl (cur', None) -> Forall (stands fs cur') ms.
Proof.
  induction ms as [|(k & m) ms IH]; intros U A cur cur' H; [constructor|]. cbn [map] in U. inversion U as [|? ? NI U']; subst. inversion A as [|? ? Am A']; subst. cbn [snd fst] in *.
  cbn [dec_members] in H. destruct (find_field fs k) as [j|] eqn:F.
  2:{ constructor; [intros i f c Q; cbn [fst] in Q; congruence|exact (IH U' A' _ _ H)]. }
  destruct (nth_error fs j) as [f|] eqn:N.
  2:{ constructor; [intros i f c Q; cbn [fst] in Q; congruence|exact (IH U' A' _ _ H)]. }
  assert (NT : forall p, In p ms -> find_field fs (fst p) <> Some j).
  { intros p I Q. apply find_field_sound in F as (f1 & n1 & o1 & F1 & J1 & E1). apply find_field_sound in Q as (f2 & n2 & o2 & F2 & J2 & E2). apply NI. apply in_map_iff. exists p. split; [congruence|exact I]. }
  destruct (nth_error cur j) as [c|] eqn:C.
  2:{ constructor; [|exact (IH U' A' _ _ H)]. intros i g c Q G X. cbn [fst] in Q. assert (i = j) by congruence. subst i. rewrite (untouched fs j ms cur cur' None NT H) in X. congruence. }
  destruct (m_dec m (f_ty f) c) as [v e|] eqn:D; [|discriminate H]. destruct (dec_members ms fs (set_nth j v cur)) as [(c' & e')|] eqn:M; [|discriminate H]. injection H as <- Q.
  apply first_none in Q as (-> & ->). constructor; [|exact (IH U' A' _ _ M)].
  intros i g x Q G X. cbn [fst snd] in *. assert (i = j) by congruence. subst i. assert (g = f) by congruence. subst g.
  rewrite (untouched fs j ms _ _ _ NT M), nth_set_same in X by (apply nth_error_Some; congruence). injection X as <-. exact (Am _ _ _ D).
Qed.
Lemma struct_again s fs cur vs : shape_again s -> JsonModel.dec_struct s fs cur = inl (vs, None) -> JsonModel.dec_struct s fs vs = inl (vs, None).
Proof.
  intros S H. destruct s; cbn [JsonModel.dec_struct] in *; try discriminate H; [congruence|]. destruct S as (A & U). apply members_stand, (members_stands fs _ U A _ _ H).
Qed.
Lemma plain_again s t cur v : shape_again s -> plain s t cur = DVal v None -> plain s t v = DVal v None.
Proof.
  intros S H. unfold plain in *. destruct (kind_of t) as [| | | |t'|t'|fs|] eqn:K; try (destruct s; try discriminate H; try congruence; fail).
  - destruct s; try discriminate H; try congruence. destruct (atoi lit); [congruence|discriminate].
  - destruct s; try discriminate H; try congruence. destruct (parse_float _ lit); [congruence|discriminate].
  - destruct s as [| | | |ds|]; try discriminate H; try congruence. destruct (dec_elements ds t' (list_of_slice cur)) as [(l & e)|] eqn:E; [|discriminate]. injection H as <- ->.
    cbn [list_of_slice]. rewrite (elements_again ds t' S _ _ E). reflexivity.
  - destruct (JsonModel.dec_struct s fs (fields_of_val cur)) as [(vs & e)|] eqn:E; [|discriminate]. injection H as <- ->. cbn [fields_of_val]. rewrite (struct_again s fs _ _ S E). reflexivity.
Qed.
Lemma bind_inv {E A B} (r : result E A) (f : A -> result E B) v : bind r f = Ok v -> exists x, r = Ok x /\ f x = Ok v.
Proof. destruct r as [x|]; cbn; [|discriminate]. intros H. exists x. auto. Qed.
Lemma unmarshal_again t h fs s cur v : hooked_type t h fs -> h <> HLicense -> shape_again s -> unmarshal h s t cur = Ok v -> unmarshal h s t (fields_of_val v) = Ok v.
Proof.
  intros T NL S E.
  assert (IK : h = HIKEv2 -> unmarshal h s t (fields_of_val v) = Ok v).
  { intros ->. destruct cur as [|r cur]; [discriminate E|]. pose proof (hooked_kind _ _ _ T) as K.
    assert (P : finish (plain s t (VStruct (r :: cur))) = Ok v -> exists x l, v = VStruct (x :: l) /\ finish (plain s t v) = Ok v).
    { intros P. apply finish_ok in P. pose proof (plain_again s t _ _ S P) as Q. rewrite Q. unfold plain in P. rewrite K in P. cbn [fields_of_val] in P.
      destruct (JsonModel.dec_struct s fs (r :: cur)) as [(vs & e)|] eqn:D; [|discriminate P]. injection P as <- ->. destruct vs as [|x l].
      - exfalso. assert (L : length (@nil val) = length (r :: cur)); [|discriminate L]. destruct s; cbn [JsonModel.dec_struct] in D; try discriminate D.
        clear -D. set (c := r :: cur) in *. clearbody c. set (w := @nil val) in *. clearbody w. set (e := @None jerr) in D. clearbody e. revert c w e D. induction ms as [|(k & m) ms IH]; intros c w e D; cbn [dec_members] in D; [injection D as <- <-; reflexivity|].
        destruct (find_field fs k) as [i|]; [|exact (IH _ _ _ D)]. destruct (nth_error fs i) as [f|]; [|exact (IH _ _ _ D)]. destruct (nth_error c i) as [y|]; [|exact (IH _ _ _ D)].
        destruct (m_dec m (f_ty f) y) as [z ez|]; [|discriminate D]. destruct (dec_members ms fs (set_nth i z c)) as [(c' & e')|] eqn:M; [|discriminate D]. injection D as <- <-. rewrite (IH _ _ _ M). apply set_nth_length.
      - exists x, l. auto. }
    destruct s; cbn [unmarshal] in E; try (apply P in E as (x & l & -> & Q); exact Q). injection E as <-. reflexivity. }
  destruct T; try contradiction; try (apply IK; reflexivity); clear IK.
  all: try (destruct cur as [|c1 [|c2 [|c3 [|c4 cur]]]]; try discriminate E; []).
  - cbn [unmarshal] in E. destruct (plain s (TRef "Property") (zero_of (TRef "Property"))) as [p err|] eqn:P; [|discriminate].
    assert (G : (if negb (zero_value p) then Ok (VStruct [some_ptr p; c2])
                 else match plain s TStr (VStr "") with
                      | DAbort e => Err e
                      | DVal v err' => match err' with None | Some (EType "object") => Ok (VStruct [c1; v]) | Some e => Err e end
                      end) = Ok v).
    { destruct err as [e|]; [|exact E]. destruct e; try discriminate E.
      repeat (match type of E with context [match ?x with _ => _ end] => destruct x end; try discriminate E; try exact E). }
    assert (H : exists a b, v = VStruct [a; b] /\
                (if negb (zero_value p) then Ok (VStruct [some_ptr p; b])
                 else match plain s TStr (VStr "") with
                      | DAbort e => Err e
                      | DVal v err' => match err' with None | Some (EType "object") => Ok (VStruct [a; v]) | Some e => Err e end
                      end) = Ok v).
    { destruct (negb (zero_value p)); [injection G as <-; eauto|]. destruct (plain s TStr (VStr "")) as [w err'|]; [|discriminate G].
      destruct err' as [e|]; [|injection G as <-; eauto].
      assert (Q : v = VStruct [c1; w] /\ match e with EType "object" => @None jerr | _ => Some e end = None).
      { destruct e; try discriminate G. repeat (match type of G with context [match ?x with _ => _ end] => destruct x end; try discriminate G). injection G as <-. split; reflexivity. }
      destruct Q as (-> & Q). exists c1, w. split; [reflexivity|]. destruct e; try discriminate Q.
      repeat (match type of Q with context [match ?x with _ => _ end] => destruct x end; try discriminate Q). reflexivity. }
    destruct H as (a & b & -> & H). cbn [fields_of_val unmarshal]. rewrite P. clear G.
    destruct err as [e|]; [|exact H]. destruct e; try discriminate E.
    repeat (match type of E with context [match ?x with _ => _ end] => destruct x end; try discriminate E; try exact H).
  - cbn [unmarshal] in E. apply bind_inv in E as (r & R & E). destruct r as [| | | | | |[|[x| | | | | |] [|? ?]]]; try discriminate E. destruct (negb (String.eqb x "")) eqn:X.
    + injection E as <-. cbn [fields_of_val unmarshal]. rewrite R. cbn [bind]. rewrite X. reflexivity.
    + apply bind_inv in E as (d & D & E). injection E as <-. cbn [fields_of_val unmarshal]. rewrite R. cbn [bind]. rewrite X, D. cbn [bind]. destruct (zero_value d); reflexivity.
  - cbn [unmarshal] in E.
    assert (G : (exists comps servs, unmarshal_into s (TRef "toolsChoiceJSON") = Ok (VStruct [comps; servs]) /\ v = if (nonnil comps || nonnil servs)%bool then VStruct [VPtr None; comps; servs] else VStruct cur) \/
                (exists l, unmarshal_into s (TRef "toolsChoiceJSON") = Err (EType "array") /\ unmarshal_into s (TSlice (TRef "Tool")) = Ok l /\ v = VStruct [some_ptr l; VPtr None; VPtr None])).
    { destruct (unmarshal_into s (TRef "toolsChoiceJSON")) as [r|e].
      - destruct r as [| | | | | |[|a [|b [|? ?]]]]; try discriminate E. left. exists a, b. split; [reflexivity|]. congruence.
      - destruct e; try discriminate E. repeat (match type of E with context [match ?x with _ => _ end] => destruct x end; try discriminate E). apply bind_inv in E as (l & L & E). right. exists l. injection E as <-. auto. }
    destruct G as [(comps & servs & R & ->)|(l & R & L & ->)]; cbn [unmarshal].
    + rewrite R. destruct (nonnil comps || nonnil servs)%bool; reflexivity.
    + rewrite R, L. reflexivity.
  - cbn [unmarshal] in E. destruct s; apply bind_inv in E as (x & X & E); injection E as <-; cbn [fields_of_val unmarshal]; rewrite X; reflexivity.
  - cbn [unmarshal] in E. apply bind_inv in E as (x & X & E). destruct (negb (String.eqb x "")) eqn:N; apply bind_inv in E as (y & Y & E); injection E as <-; cbn [fields_of_val unmarshal]; rewrite X; cbn [bind]; rewrite N, Y; reflexivity.
  - cbn [unmarshal] in E. apply bind_inv in E as (x & X & E). destruct (negb (String.eqb x "")) eqn:N; apply bind_inv in E as (y & Y & E); injection E as <-; cbn [fields_of_val unmarshal]; rewrite X; cbn [bind]; rewrite N, Y; reflexivity.
  - cbn [unmarshal] in E. destruct s as [| | | | |ms]; try discriminate E; [injection E as <-; reflexivity|].
    destruct (dec_raw ms [None; None; None]) as [|[d1|] [|[d2|] [|[d3|] [|? ?]]]] eqn:R; try (injection E as <-; cbn [fields_of_val unmarshal]; rewrite R; reflexivity);
      apply bind_inv in E as (x & X & E); injection E as <-; cbn [fields_of_val unmarshal]; rewrite R, X; reflexivity.
  - cbn [unmarshal] in E. apply bind_inv in E as (x & X & E). destruct (negb (String.eqb x "")) eqn:N; apply bind_inv in E as (y & Y & E); injection E as <-; cbn [fields_of_val unmarshal]; rewrite X; cbn [bind]; rewrite N, Y; reflexivity.
Qed.
Lemma node_again s : shape_again s -> again (node s).
Proof.
  intros S t. induction t; intros cur v E.
  1-5,7: rewrite node_plain in E |- * by (discriminate || reflexivity); eapply plain_again; eassumption.
  - cbn [node] in *.
    assert (G : match node s t (match cur with VPtr (Some x) => x | _ => zero_of t end) with DVal v err => DVal (some_ptr v) err | DAbort e => DAbort e end = DVal v None ->
                exists w, v = VPtr (Some w) /\ node s t w = DVal w None).
    { intros G. destruct (node s t _) as [v' err|] eqn:N; [|discriminate]. injection G as <- ->. exists v'. split; [reflexivity|]. exact (IHt _ _ N). }
    destruct s; try (apply G in E as (w & -> & Q); rewrite Q; reflexivity). injection E as <-. reflexivity.
  - destruct (hook_cases (TRef name)) as [H|[[= ->]|(h & fs & H)]].
    + pose proof (unhooked _ H) as U. assert (NP : forall c, node s (TRef name) c = plain s (TRef name) c) by (intros c; apply node_plain; [discriminate|exact U]). rewrite NP in E |- *. eapply plain_again; eassumption.
    + exact E.
    + assert (D : h = HLicense \/ h <> HLicense) by (destruct h; auto; right; discriminate). destruct D as [->|D].
      * assert (U : unmarshal_hook (TRef name) = HNone) by (unfold unmarshal_hook; rewrite (hooked_marshal _ _ _ H); reflexivity).
        assert (NP : forall c, node s (TRef name) c = plain s (TRef name) c) by (intros c; apply node_plain; [discriminate|exact U]). rewrite NP in E |- *. eapply plain_again; eassumption.
      * pose proof (fun c => hooked_node _ _ _ s c H D) as HN. rewrite HN in E |- *. destruct (unmarshal h s (TRef name) (fields_of_val cur)) as [v'|] eqn:U; [|discriminate].
        injection E as <-. rewrite (unmarshal_again _ _ _ _ _ _ H D S U). reflexivity.
Qed.
Lemma jdec_again j : doc_unique j -> again (jdec j).
Proof.
  induction j as [| | | |l IH|ms IH] using json_induction; intros U; rewrite jdec_eq; apply node_again; cbn [shape_of shape_again]; trivial.
  - cbn [doc_unique] in U. rewrite list_all_forall in U. rewrite Forall_map. rewrite Forall_forall in *. auto.
  - cbn [doc_unique] in U. destruct U as (N & U). rewrite list_all_forall in U. split.
    + rewrite Forall_map. rewrite Forall_forall in *. cbn [snd m_dec]. auto.
    + rewrite map_map. cbn [fst]. exact N.
Qed.
Lemma bom_decoded_twice j b c : doc_utf8 j -> doc_unique j -> fit (TRef "BOM") (reify_BOM b) -> bom_of_json j b = Ok c -> bom_of_json j c = Ok c.
Proof.
  intros U N F H. unfold bom_of_json in *. destruct (too_deep j); [discriminate|]. apply bind_inv in H as (v & V & Q). injection Q as <-. apply finish_ok in V.
  rewrite (reify_reflect v) by (eapply (jdec_keeps j U); [exact bom_wk|exact F|exact V]). rewrite (jdec_again j N _ _ _ V). reflexivity.
Qed.
