(** Reading back what a struct has written, given that its fields can be read back. *)
From Verif Require Import Base Types Univ TypeTable Wt ReifyBase Consts Numbers JsonModel JsonProofs JsonHooks XmlModel XmlBack XmlTable XmlSpec XmlValues.
From Coq Require Import Lia.
Local Open Scope string_scope.
Section Limits.
Context {Lim : Limit}.

(** ** Induction over values whose parts are all good *)
Fixpoint everywhere (P : val -> Prop) (v : val) {struct v} : Prop :=
  P v /\
  match v with
  | VPtr (Some x) => everywhere P x
  | VSlice (Some l) => list_all (everywhere P) l
  | VStruct l => list_all (everywhere P) l
  | _ => True
  end.
Definition below (P : val -> Prop) (v : val) : Prop :=
  match v with
  | VPtr (Some x) => everywhere P x
  | VSlice (Some l) => list_all (everywhere P) l
  | VStruct l => list_all (everywhere P) l
  | _ => True
  end.
Lemma list_all_Forall {A} (P : A -> Prop) l : list_all P l <-> Forall P l.
Proof.
  split.
  - induction l as [|x l IH]; intros H; [constructor|]. destruct H as (H & T). constructor; auto.
  - induction 1; cbn; auto.
Qed.
Lemma everywhere_here (P : val -> Prop) v : everywhere P v -> P v.
Proof. destruct v; intros (H & _); exact H. Qed.
Lemma everywhere_below (P : val -> Prop) v : everywhere P v -> below P v.
Proof. destruct v; intros (_ & H); exact H. Qed.
Lemma everywhere_intro (P : val -> Prop) v : P v -> below P v -> everywhere P v.
Proof. destruct v; cbn; auto. Qed.
Lemma val_strong (P : val -> Prop) : (forall v, below P v -> P v) -> forall v, everywhere P v.
Proof.
  intros H. induction v as [s|z|b|f| |x IH| |l IH|vs IH] using val_induction; apply everywhere_intro; try (apply H); cbn [below]; auto;
    apply list_all_Forall, IH.
Qed.

(** ** Documents *)
Definition named (n : string) (e : xml) : Prop := match e with XElem _ l _ _ => l = n | XText _ => False end.
Definition vdec (x : xml) (t : ty) (d : N) (cur : val) : result xerr val :=
  match x with XElem sp l a ks => dec_value sp l a (map waiting ks) t d cur | XText _ => Err XEOF end.
Fixpoint dec_seq (t : ty) (d : N) (es : list xml) (cur : val) : result xerr val :=
  match es with [] => Ok cur | e :: es' => bind (xdec e t d cur) (dec_seq t d es') end.

Lemma seen_elem e e' : seen e e' -> is_elem e = true /\ is_elem e' = true.
Proof. intros H. destruct H; auto. Qed.
Lemma seen_named n e e' : seen e e' -> named n e -> named n e'.
Proof. intros H. destruct H; auto. Qed.
Lemma Forall2_seen_filter ks ks' : Forall2 seen ks ks' -> filter is_elem ks = ks /\ filter is_elem ks' = ks'.
Proof.
  induction 1 as [|e e' ks ks' H _ (I1 & I2)]; [auto|]. apply seen_elem in H as (H1 & H2). cbn. rewrite H1, H2, I1, I2. auto.
Qed.
Lemma filter_no_elem ks : existsb is_elem ks = false -> filter is_elem ks = [].
Proof. induction ks as [|k ks IH]; [reflexivity|]. cbn. destruct (is_elem k); [discriminate|exact IH]. Qed.
Lemma seen_inv sp l a ks e' : seen (XElem sp l a ks) e' ->
  exists sp' ks', e' = XElem sp' l a ks' /\ Forall2 seen (filter is_elem ks) (filter is_elem ks') /\
    (existsb is_elem ks = false -> ks' = ks) /\ (existsb is_elem ks = true -> forallb blank_text ks' = true).
Proof.
  intros H. inversion H as [? sp' ? ? ? N|? sp' ? ? ? ks' N F B]; subst.
  - exists sp', ks. repeat split; auto.
    + rewrite (filter_no_elem _ N). constructor.
    + rewrite N. discriminate.
  - exists sp', ks'. repeat split; auto.
    + destruct (Forall2_seen_filter _ _ F) as (-> & _). exact F.
    + destruct ks as [|k ks]; [congruence|]. inversion F; subst. apply seen_elem in H3 as (K & _). cbn. rewrite K. discriminate.
Qed.

Lemma tall_kid sp l a ks k : In k ks -> (N.succ (tall k) <= tall (XElem sp l a ks))%N.
Proof.
  intros H. cbn [tall]. apply -> N.succ_le_mono. induction ks as [|x ks IH]; [contradiction|].
  cbn [map fold_right]. destruct H as [->|H]; [lia|]. specialize (IH H). lia.
Qed.
Lemma tall_pos sp l a ks : (1 <= tall (XElem sp l a ks))%N.
Proof. cbn [tall]. lia. Qed.

(** ** Where the decoder of a struct sends an element *)
Definition sent_inside (ds : list field) (p : string) (i : nat) (e : xml) : list xml :=
  match e with
  | XElem _ l _ _ => match find_place (Some p) l 0 ds with Some (Here j) => if Nat.eqb j i then [e] else [] | _ => [] end
  | XText _ => []
  end.
Definition sent (ds : list field) (i : nat) (e : xml) : list xml :=
  match e with
  | XElem _ l _ ks =>
      match find_place None l 0 ds with
      | Some (Here j) => if Nat.eqb j i then [e] else []
      | Some (Inside p) => flat_map (sent_inside ds p i) ks
      | None => []
      end
  | XText _ => []
  end.

Lemma find_place_here parent l ds : forall k i, find_place parent l k ds = Some (Here i) ->
  exists g, nth_error ds (i - k) = Some g /\ is_element g = true /\ (k <= i)%nat.
Proof.
  induction ds as [|f ds IH]; intros k i H; [discriminate|]. cbn [find_place] in H.
  destruct (place_of parent l k f) as [q|] eqn:P.
  - injection H as ->. unfold place_of in P. unfold is_element.
    destruct (xml_info f) as [[m ps n o]|] eqn:X; [|discriminate]. destruct m; try discriminate.
    assert (i = k) as ->.
    { destruct parent as [q|], ps as [|p ps]; try discriminate.
      - destruct ps; [|discriminate]. destruct (String.eqb p q && String.eqb n l)%bool; [injection P as ->; reflexivity|discriminate].
      - destruct (String.eqb n l); [injection P as ->; reflexivity|discriminate].
      - destruct (String.eqb p l); discriminate. }
    rewrite Nat.sub_diag. exists f. cbn. rewrite X. auto.
  - apply IH in H as (g & G & E & L). exists g. replace (i - k)%nat with (S (i - S k))%nat by lia. cbn. repeat split; auto. lia.
Qed.
Lemma sent_inside_here ds p i e x : In x (sent_inside ds p i e) -> exists g, nth_error ds i = Some g /\ is_element g = true.
Proof.
  destruct e as [s|sp l a ks]; cbn; [contradiction|]. destruct (find_place (Some p) l 0 ds) as [[j|q]|] eqn:F; try contradiction.
  destruct (Nat.eqb_spec j i) as [->|]; [|contradiction]. intros _. apply find_place_here in F as (g & G & E & _).
  rewrite Nat.sub_0_r in G. eauto.
Qed.
Lemma sent_here ds i e x : In x (sent ds i e) -> exists g, nth_error ds i = Some g /\ is_element g = true.
Proof.
  destruct e as [s|sp l a ks]; cbn; [contradiction|]. destruct (find_place None l 0 ds) as [[j|q]|] eqn:F; try contradiction.
  - destruct (Nat.eqb_spec j i) as [->|]; [|contradiction]. intros _. apply find_place_here in F as (g & G & E & _).
    rewrite Nat.sub_0_r in G. eauto.
  - intros H. apply in_flat_map in H as (k & _ & H). eapply sent_inside_here, H.
Qed.
Lemma sent_none ds i g ks : nth_error ds i = Some g -> is_element g = false -> flat_map (sent ds i) ks = [].
Proof.
  intros G E. destruct (flat_map (sent ds i) ks) as [|x l] eqn:F; [reflexivity|].
  assert (I : In x (flat_map (sent ds i) ks)) by (rewrite F; left; reflexivity).
  apply in_flat_map in I as (k & _ & I). apply sent_here in I as (g' & G' & E'). congruence.
Qed.

Lemma filter_flat_map {B} (f : xml -> list B) ks : (forall s, f (XText s) = []) -> flat_map f (filter is_elem ks) = flat_map f ks.
Proof. intros H. induction ks as [|k ks IH]; [reflexivity|]. destruct k; cbn [filter is_elem flat_map]; rewrite IH, ?H; reflexivity. Qed.
Lemma Forall2_flat_map {A B} (R : A -> A -> Prop) (Q : B -> B -> Prop) (f : A -> list B) l l' :
  (forall x x', R x x' -> Forall2 Q (f x) (f x')) -> Forall2 R l l' -> Forall2 Q (flat_map f l) (flat_map f l').
Proof. intros H. induction 1; [constructor|]. cbn. apply Forall2_app; auto. Qed.
Lemma seen_inside ds p i e e' : seen e e' -> Forall2 seen (sent_inside ds p i e) (sent_inside ds p i e').
Proof.
  destruct e as [s|sp l a ks]; [intros H; inversion H|]. intros H. pose proof H as H0.
  apply seen_inv in H as (sp' & ks' & -> & _). cbn. destruct (find_place (Some p) l 0 ds) as [[j|q]|]; try constructor.
  destruct (Nat.eqb j i); constructor; auto.
Qed.
Lemma seen_kids {B} (Q : B -> B -> Prop) (f : xml -> list B) ks ks' : (forall s, f (XText s) = []) ->
  (forall e e', seen e e' -> Forall2 Q (f e) (f e')) -> Forall2 seen (filter is_elem ks) (filter is_elem ks') ->
  Forall2 Q (flat_map f ks) (flat_map f ks').
Proof.
  intros T H F. rewrite <- (filter_flat_map f ks T), <- (filter_flat_map f ks' T). eapply Forall2_flat_map; eauto.
Qed.
Lemma seen_sent ds i e e' : seen e e' -> Forall2 seen (sent ds i e) (sent ds i e').
Proof.
  destruct e as [s|sp l a ks]; [intros H; inversion H|]. intros H. pose proof H as H0.
  apply seen_inv in H as (sp' & ks' & -> & F & _). cbn. destruct (find_place None l 0 ds) as [[j|q]|]; [| |constructor].
  - destruct (Nat.eqb j i); constructor; auto.
  - apply seen_kids; auto. intros. apply seen_inside; assumption.
Qed.
Lemma sent_tall ds i ks h x : (forall k, In k ks -> (tall k <= h)%N) -> In x (flat_map (sent ds i) ks) -> (tall x <= h)%N.
Proof.
  intros H I. apply in_flat_map in I as (k & K & I). specialize (H k K). destruct k as [s|sp l a ks0]; [contradiction|]. cbn [sent] in I.
  destruct (find_place None l 0 ds) as [[j|q]|]; try contradiction.
  - destruct (Nat.eqb j i); [|contradiction]. destruct I as [<-|[]]. exact H.
  - apply in_flat_map in I as (k & K0 & I). pose proof (tall_kid sp l a ks0 k K0).
    destruct k as [s|sp' l' a' ks1]; [contradiction|]. cbn [sent_inside] in I. destruct (find_place (Some q) l' 0 ds) as [[j|?]|]; try contradiction.
    destruct (Nat.eqb j i); [|contradiction]. destruct I as [<-|[]]. lia.
Qed.

(** ** Reading the children, index by index *)
Definition goes (ds : list field) (D : N) (out : list val) (els : nat -> list xml) (cur : list val) : Prop :=
  length cur = length ds /\
  forall i f c, nth_error ds i = Some f -> nth_error cur i = Some c ->
    exists o, nth_error out i = Some o /\ dec_seq (f_ty f) (N.succ D) (els i) c = Ok o.

Lemma set_nth_length {A} i (x : A) l : length (set_nth i x l) = length l.
Proof. revert i. induction l as [|y l IH]; intros [|i]; cbn; auto. Qed.
Lemma nth_set_here {A} i (x y : A) l : nth_error l i = Some y -> nth_error (set_nth i x l) i = Some x.
Proof. revert i. induction l as [|z l IH]; intros [|i]; cbn; try discriminate; auto. Qed.

Lemma goes_at ds D out els j e cur : is_elem e = true -> (j < length ds)%nat ->
  goes ds D out (fun i => (if Nat.eqb j i then [e] else []) ++ els i)%list cur ->
  exists mid, dec_at ds j (xdec e) D cur = Ok mid /\ goes ds D out els mid.
Proof.
  intros El L (Lc & H). unfold dec_at. destruct (nth_error ds j) as [f|] eqn:F; [|apply nth_error_None in F; lia].
  destruct (nth_error cur j) as [c|] eqn:C; [|apply nth_error_None in C; lia].
  destruct (H j f c F C) as (o & O & S). rewrite Nat.eqb_refl in S. cbn [app dec_seq] in S.
  apply bind_ok in S as (v & V & S). rewrite V. cbn [bind]. eexists. split; [reflexivity|]. split; [rewrite set_nth_length; exact Lc|].
  intros i g c' G C'. destruct (Nat.eq_dec i j) as [->|N].
  - rewrite (nth_set_here j v c cur C) in C'. injection C' as <-. rewrite F in G. injection G as <-. eauto.
  - rewrite nth_set_other in C' by assumption. destruct (H i g c' G C') as (o' & O' & S'). exists o'. split; [exact O'|].
    replace (Nat.eqb j i) with false in S'; [exact S'|]. symmetry. apply Nat.eqb_neq. congruence.
Qed.
Lemma goes_ext ds D out els els' cur : (forall i, els i = els' i) -> goes ds D out els cur -> goes ds D out els' cur.
Proof. intros E (L & H). split; [exact L|]. intros i f c F C. rewrite <- E. eauto. Qed.
Lemma place_lt parent l ds i : find_place parent l 0 ds = Some (Here i) -> (i < length ds)%nat.
Proof. intros H. apply find_place_here in H as (g & G & _). rewrite Nat.sub_0_r in G. apply nth_error_Some. congruence. Qed.

Lemma dec_inside_ok ds p D ks : forall out els cur, goes ds D out (fun i => flat_map (sent_inside ds p i) ks ++ els i)%list cur ->
  exists mid, dec_inside ds p D (map waiting ks) cur = Ok mid /\ goes ds D out els mid.
Proof.
  induction ks as [|k ks IH]; intros out els cur G.
  - exists cur. split; [reflexivity|exact G].
  - destruct k as [s|sp l a ks0].
    + apply (IH out els cur). exact G.
    + cbn [map waiting dec_inside]. destruct (find_place (Some p) l 0 ds) as [[j|q]|] eqn:F.
      * destruct (goes_at ds D out (fun i => flat_map (sent_inside ds p i) ks ++ els i)%list j (XElem sp l a ks0) cur) as (mid & M & G').
        { reflexivity. } { eapply place_lt, F. }
        { eapply goes_ext; [|exact G]. intros i. cbn [flat_map sent_inside]. rewrite F, app_assoc. reflexivity. }
        unfold xdec in M. cbn [waiting] in M. rewrite M. cbn [bind]. apply IH, G'.
      * cbn [bind]. apply IH. eapply goes_ext; [|exact G]. intros i. cbn [flat_map sent_inside]. rewrite F. reflexivity.
      * cbn [bind]. apply IH. eapply goes_ext; [|exact G]. intros i. cbn [flat_map sent_inside]. rewrite F. reflexivity.
Qed.
Lemma dec_kids_step ds D ks : forall out els cur, goes ds D out (fun i => flat_map (sent ds i) ks ++ els i)%list cur ->
  exists mid, dec_kids ds D (map waiting ks) cur = Ok mid /\ goes ds D out els mid.
Proof.
  induction ks as [|k ks IH]; intros out els cur G.
  - exists cur. split; [reflexivity|exact G].
  - destruct k as [s|sp l a ks0].
    + apply (IH out els cur). exact G.
    + cbn [map waiting dec_kids]. destruct (find_place None l 0 ds) as [[j|q]|] eqn:F.
      * destruct (goes_at ds D out (fun i => flat_map (sent ds i) ks ++ els i)%list j (XElem sp l a ks0) cur) as (mid & M & G').
        { reflexivity. } { eapply place_lt, F. }
        { eapply goes_ext; [|exact G]. intros i. cbn [flat_map sent]. rewrite F, app_assoc. reflexivity. }
        unfold xdec in M. cbn [waiting] in M. rewrite M. cbn [bind]. apply IH, G'.
      * destruct (dec_inside_ok ds q D ks0 out (fun i => flat_map (sent ds i) ks ++ els i)%list cur) as (mid & M & G').
        { eapply goes_ext; [|exact G]. intros i. cbn [flat_map sent]. rewrite F, app_assoc. reflexivity. }
        rewrite M. cbn [bind]. apply IH, G'.
      * cbn [bind]. apply IH. eapply goes_ext; [|exact G]. intros i. cbn [flat_map sent]. rewrite F. reflexivity.
Qed.
Lemma nth_ext_error {A} (l l' : list A) : length l = length l' -> (forall i x, nth_error l i = Some x -> nth_error l' i = Some x) -> l = l'.
Proof.
  revert l'. induction l as [|x l IH]; intros [|y l'] L H; try discriminate; [reflexivity|].
  specialize (H 0%nat x eq_refl) as H0. cbn in H0. injection H0 as ->. f_equal. apply IH; [auto|]. intros i z. apply (H (S i)).
Qed.
Lemma dec_kids_ok ds D ks out cur : length out = length ds -> goes ds D out (fun i => flat_map (sent ds i) ks) cur ->
  dec_kids ds D (map waiting ks) cur = Ok out.
Proof.
  intros L G. destruct (dec_kids_step ds D ks out (fun _ => []) cur) as (mid & M & (Lm & H)).
  { eapply goes_ext; [|exact G]. intros i. symmetry. apply app_nil_r. }
  rewrite M. f_equal. apply nth_ext_error; [congruence|]. intros i c C.
  destruct (nth_error ds i) as [f|] eqn:F; [|apply nth_error_None in F; assert (i < length mid)%nat by (apply nth_error_Some; congruence); lia].
  destruct (H i f c F C) as (o & O & S). cbn in S. congruence.
Qed.

(** ** Reading the attributes, index by index *)
Definition attr_step (f : field) (n s : string) (c : val) : result xerr val :=
  match xml_info f with
  | Some (mkX XAttribute _ m _) => if String.eqb m n then dec_attr (f_ty f) s else Ok c
  | _ => Ok c
  end.
Fixpoint field_attrs (f : field) (attrs : list (string * string)) (c : val) : result xerr val :=
  match attrs with
  | [] => Ok c
  | (n, s) :: attrs' => bind (attr_step f n s c) (field_attrs f attrs')
  end.
Inductive rows3 (P : field -> val -> val -> Prop) : list field -> list val -> list val -> Prop :=
| rows3_nil : rows3 P [] [] []
| rows3_cons f c o fs cs os : P f c o -> rows3 P fs cs os -> rows3 P (f :: fs) (c :: cs) (o :: os).
Lemma set_attr_ok n s fs cur out : rows3 (fun f c o => attr_step f n s c = Ok o) fs cur out -> set_attr fs n s cur = Ok out.
Proof. induction 1 as [|f c o fs cs os H _ IH]; [reflexivity|]. cbn [set_attr]. unfold attr_step in H. rewrite H, IH. reflexivity. Qed.
Lemma set_attrs_ok attrs : forall fs cur out, rows3 (fun f c o => field_attrs f attrs c = Ok o) fs cur out -> set_attrs fs attrs cur = Ok out.
Proof.
  induction attrs as [|(n & s) attrs IH]; intros fs cur out H.
  - cbn. f_equal. induction H as [|f c o fs cs os H _ IH]; [reflexivity|]. cbn in H. injection H as ->. f_equal. exact IH.
  - assert (M : exists mid, rows3 (fun f c o => attr_step f n s c = Ok o) fs cur mid /\ rows3 (fun f c o => field_attrs f attrs c = Ok o) fs mid out).
    { induction H as [|f c o fs cs os H _ (mid & I1 & I2)]; [exists []; split; constructor|].
      cbn [field_attrs] in H. apply bind_ok in H as (m & H1 & H2). exists (m :: mid). split; constructor; auto. }
    destruct M as (mid & M1 & M2). cbn [set_attrs]. rewrite (set_attr_ok _ _ _ _ _ M1). cbn [bind]. apply IH, M2.
Qed.
Lemma rows3_index (P : field -> val -> val -> Prop) fs : forall cs os, length cs = length fs -> length os = length fs ->
  (forall i f c o, nth_error fs i = Some f -> nth_error cs i = Some c -> nth_error os i = Some o -> P f c o) -> rows3 P fs cs os.
Proof.
  induction fs as [|f fs IH]; intros [|c cs] [|o os] L1 L2 H; try discriminate; constructor.
  - apply (H 0%nat); reflexivity.
  - apply IH; auto. intros i. apply (H (S i)).
Qed.

(** ** Reading a struct *)
Definition name_fits (ds : list field) (l : string) : bool :=
  match xml_name ds with Some n => String.eqb n l | None => true end.
Lemma set_name_length fs sp l : forall cur, length (set_name fs sp l cur) = length cur.
Proof. induction fs as [|f fs IH]; intros [|c cur]; cbn; auto. Qed.
Lemma dec_struct_core ds sp l attrs ks ks' D mids out : name_fits ds l = true ->
  Forall2 seen (filter is_elem ks) (filter is_elem ks') -> length mids = length ds -> length out = length ds ->
  (forall k, In k ks' -> (N.succ D + 2 * tall k <= limit)%N) ->
  (forall i f c m, nth_error ds i = Some f -> nth_error (set_name ds sp l (XmlModel.zeros ds)) i = Some c -> nth_error mids i = Some m ->
     field_attrs f attrs c = Ok m /\
     forall els', Forall2 seen (flat_map (sent ds i) ks) els' -> Forall (fun x => (N.succ D + 2 * tall x <= limit)%N) els' ->
       exists o, nth_error out i = Some o /\ dec_seq (f_ty f) (N.succ D) els' m = Ok o) ->
  dec_struct ds sp l attrs (map waiting ks') D (XmlModel.zeros ds) = Ok (set_chardata ds (chardata (map waiting ks')) out).
Proof.
  intros Nm F Lm Lo T H. unfold dec_struct. replace (match xml_name ds with Some n => negb (String.eqb n l) | None => false end) with false.
  2:{ unfold name_fits in Nm. destruct (xml_name ds); [rewrite Nm|]; reflexivity. }
  assert (Lz : length (set_name ds sp l (XmlModel.zeros ds)) = length ds) by (rewrite set_name_length; unfold XmlModel.zeros; apply map_length).
  rewrite (set_attrs_ok attrs ds _ mids).
  2:{ apply rows3_index; auto. intros i f c m I1 I2 I3. apply (H i f c m I1 I2 I3). }
  cbn [bind]. rewrite (dec_kids_ok ds D ks' out mids Lo); [reflexivity|].
  split; [exact Lm|]. intros i f m I1 I3.
  destruct (nth_error (set_name ds sp l (XmlModel.zeros ds)) i) as [c|] eqn:I2.
  2:{ apply nth_error_None in I2. assert (i < length ds)%nat by (apply nth_error_Some; congruence). lia. }
  destruct (H i f c m I1 I2 I3) as (_ & S). destruct (S (flat_map (sent ds i) ks')) as (o & O & S').
  - apply seen_kids; auto. apply seen_sent.
  - rewrite Forall_forall. intros x X. assert (B : (tall x <= (limit - N.succ D) / 2)%N).
    { eapply sent_tall; [|exact X]. intros k K. specialize (T k K). apply N.div_le_lower_bound; lia. }
    assert (T0 : (2 * ((limit - N.succ D) / 2) <= limit - N.succ D)%N) by (apply N.mul_div_le; lia).
    destruct ks' as [|k0 ks']; [contradiction|]. pose proof (T k0 (or_introl eq_refl)). lia.
  - eauto.
Qed.
End Limits.
