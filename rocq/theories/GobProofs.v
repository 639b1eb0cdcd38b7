(** Proofs about the deep copy. *)
From Verif Require Import Base Types Univ TypeTable Wt Reify ReifyBase ReifyFacts Consts Version ConvertModel GobModel GobSpec.
From Coq Require Import Lia.
Local Open Scope string_scope.

(** ** The copy as a function *)
Fixpoint van (v : val) : bool :=
  match v with
  | VStr s => String.eqb s ""
  | VInt z => Z.eqb z 0
  | VBool b => negb b
  | VFlt f => float_is_zero f
  | VPtr None => true
  | VPtr (Some x) => van x
  | VSlice None => true
  | VSlice (Some []) => true
  | VSlice (Some _) => false
  | VStruct _ => false
  end.
Fixpoint canon (v : val) : val :=
  match v with
  | VFlt f => VFlt (if float_is_zero f then fzero else f)
  | VPtr (Some x) => VPtr (if van x then None else Some (canon x))
  | VSlice (Some []) => VSlice None
  | VSlice (Some l) => VSlice (Some (map canon l))
  | VStruct l => VStruct (map canon l)
  | _ => v
  end.

(** ** Types whose slices have elements that are always sent *)
Definition elem_ok (t : ty) : bool :=
  match kind_of t with KStr | KInt | KBool | KStruct _ => true | _ => false end.
Fixpoint ok_ty (t : ty) : bool :=
  match t with
  | TPtr t' => ok_ty t'
  | TSlice t' => elem_ok t'
  | TRef _ => match kind_of t with KSlice t' => elem_ok t' | KPtr _ => false | _ => true end
  | _ => true
  end.

Lemma defs_ok : forallb (fun d => match snd d with DStruct fs => forallb (fun f => ok_ty (f_ty f)) fs | DAlias _ => true end) defs = true.
Proof. vm_compute. reflexivity. Qed.

Lemma assoc_in {A} n (l : list (string * A)) x : assoc n l = Some x -> In (n, x) l.
Proof.
  induction l as [|[k a] l IH]; cbn; [discriminate|]. destruct (String.eqb_spec k n) as [->|]; [|auto].
  intros [= ->]; auto.
Qed.

Lemma struct_ok t fs : kind_of t = KStruct fs -> forallb (fun f => ok_ty (f_ty f)) fs = true.
Proof.
  destruct t; cbn [kind_of kind_base]; try discriminate.
  destruct (assoc name defs) as [[fs'|t]|] eqn:E; try discriminate.
  - intros [= ->]. apply assoc_in in E. pose proof defs_ok as D. rewrite forallb_forall in D. exact (D _ E).
  - destruct t; discriminate.
Qed.

Lemma slice_ok t t' : ok_ty t = true -> kind_of t = KSlice t' -> elem_ok t' = true.
Proof.
  destruct t; cbn [ok_ty kind_base]; try discriminate.
  - intros H [= ->]; exact H.
  - intros H E. rewrite E in H. exact H.
Qed.

Lemma kind_ptr t t' : ok_ty t = true -> kind_of t = KPtr t' -> t = TPtr t' /\ ok_ty t' = true.
Proof.
  destruct t; cbn [ok_ty]; try discriminate.
  - cbn. intros H [= ->]; auto.
  - intros H E. rewrite E in H. discriminate.
Qed.

Lemma elem_ok_ok t : elem_ok t = true -> ok_ty t = true.
Proof.
  unfold elem_ok. destruct t; cbn [ok_ty]; auto; try discriminate.
  destruct (kind_of (TRef name)); trivial; discriminate.
Qed.

Lemma base_of_nonptr t : (forall t', t <> TPtr t') -> base_of t = (O, t).
Proof. destruct t; trivial. intros H. exfalso. eapply H. reflexivity. Qed.

Lemma nonptr_kind t : ok_ty t = true -> (forall t', kind_of t <> KPtr t') -> base_of t = (O, t).
Proof. intros H K. apply base_of_nonptr. intros t' ->. apply (K t'). reflexivity. Qed.

Lemma zero_of_kind t v : wt t v -> van v = true -> canon v = zero_of t.
Proof.
  intros W H. unfold zero_of. destruct v as [s|z|b|f|[x|]|[[|y l]|]|l]; cbn [wt van canon zero_n] in *; try discriminate.
  - rewrite W. apply String.eqb_eq in H. subst. reflexivity.
  - rewrite W. apply Z.eqb_eq in H. subst. reflexivity.
  - rewrite W. destruct b; [discriminate|reflexivity].
  - rewrite W. rewrite H. reflexivity.
  - destruct (kind_of t); try contradiction. rewrite H. reflexivity.
  - destruct (kind_of t); try contradiction. reflexivity.
  - destruct (kind_of t); try contradiction. reflexivity.
  - destruct (kind_of t); try contradiction. reflexivity.
Qed.

Lemma gob_receive_ptr w t : gob_receive w (TPtr t) = bind (gob_receive w t) (fun v => Ok (VPtr (Some v))).
Proof.
  destruct w; cbn [gob_receive base_of]; destruct (base_of t) as [n b0];
    match goal with |- bind ?X _ = bind (bind ?X _) _ => destruct X end; reflexivity.
Qed.

Definition send_elements :=
  fix elements (l : list val) : result string (list wire) :=
    match l with
    | [] => Ok []
    | x :: l' =>
        match gob_send true x with
        | Ok (Some w) => bind (elements l') (fun ws => Ok (w :: ws))
        | Ok None => Err gob_nil_element
        | Err e => Err e
        end
    end.
Definition send_fields :=
  fix fields (delta : nat) (vs : list val) : result string (list (nat * wire)) :=
    match vs with
    | [] => Ok []
    | x :: vs' =>
        match gob_send false x with
        | Ok (Some w) => bind (fields 1 vs') (fun ws => Ok ((delta, w) :: ws))
        | Ok None => fields (S delta) vs'
        | Err e => Err e
        end
    end.
Definition receive_elements (t' : ty) :=
  fix elements (ws : list wire) : result string (list val) :=
    match ws with
    | [] => Ok []
    | w :: ws' => bind (gob_receive w t') (fun x => bind (elements ws') (fun l => Ok (x :: l)))
    end.
Definition receive_fields :=
  fix fields (ws : list (nat * wire)) (fs : list field) : result string (list val) :=
    match ws with
    | [] => Ok (map (fun f => zero_of (f_ty f)) fs)
    | (delta, w) :: ws' =>
        match skipn (delta - 1) fs with
        | [] => Err gob_mismatch
        | f :: fs' =>
            bind (gob_receive w (f_ty f)) (fun x => bind (fields ws' fs') (fun l =>
              Ok (map (fun f => zero_of (f_ty f)) (firstn (delta - 1) fs) ++ x :: l)%list))
        end
    end.

(** A value arrives as a field of a struct. *)
Definition arrives_field (v : val) : Prop :=
  forall t, ok_ty t = true -> wt t v ->
    if van v then gob_send false v = Ok None
    else exists w, gob_send false v = Ok (Some w) /\ gob_receive w t = Ok (canon v).
(** A value arrives as an element of a slice. *)
Definition arrives_elem (v : val) : Prop :=
  forall t, elem_ok t = true -> wt t v ->
    exists w, gob_send true v = Ok (Some w) /\ gob_receive w t = Ok (canon v).

Lemma elements_arrive l t : elem_ok t = true -> Forall arrives_elem l -> list_all (wt t) l ->
  exists ws, send_elements l = Ok ws /\ receive_elements t ws = Ok (map canon l) /\ length ws = length l.
Proof.
  intros E. induction 1 as [|x l Hx _ IH]; cbn [list_all]; intros W.
  - exists []; auto.
  - destruct W as (Wx & Wl). destruct (Hx t E Wx) as (w & S1 & R1). destruct (IH Wl) as (ws & S2 & R2 & L).
    exists (w :: ws). cbn [send_elements receive_elements map length]. rewrite S1, R1. cbn [bind]. rewrite S2, R2. cbn. auto.
Qed.

Lemma skipn_app_exact {A} (l1 l2 : list A) n : length l1 = n -> skipn n (l1 ++ l2) = l2.
Proof. intros <-. rewrite skipn_app, skipn_all, Nat.sub_diag. reflexivity. Qed.
Lemma firstn_app_exact {A} (l1 l2 : list A) n : length l1 = n -> firstn n (l1 ++ l2) = l1.
Proof. intros <-. rewrite firstn_app, firstn_all, Nat.sub_diag. cbn. apply app_nil_r. Qed.

Lemma fields_arrive vs : Forall arrives_field vs ->
  forall fs skipped delta, forallb (fun f => ok_ty (f_ty f)) fs = true -> zip_all (fun f x => wt (f_ty f) x) vs fs ->
    delta = S (length skipped) ->
    exists ws, send_fields delta vs = Ok ws /\
      receive_fields ws (skipped ++ fs) = Ok (map (fun f => zero_of (f_ty f)) skipped ++ map canon vs)%list.
Proof.
  induction 1 as [|x vs Hx _ IH]; intros fs skipped delta K W D.
  - destruct fs; [|destruct W]. exists []. rewrite app_nil_r. cbn. rewrite app_nil_r. auto.
  - destruct fs as [|f fs]; [destruct W|]. cbn [forallb] in K. apply andb_prop in K as (K1 & K2). destruct W as (W1 & W2).
    specialize (Hx _ K1 W1). cbn [send_fields]. destruct (van x) eqn:V.
    + rewrite Hx. destruct (IH fs (skipped ++ [f])%list (S delta) K2 W2) as (ws & S & R).
      { rewrite app_length. cbn. lia. }
      exists ws. split; [exact S|]. rewrite <- app_assoc in R. cbn [app] in R. rewrite R. f_equal.
      rewrite map_app, <- app_assoc. cbn [map app]. do 2 f_equal. symmetry. apply zero_of_kind; assumption.
    + destruct Hx as (w & S1 & R1). rewrite S1. destruct (IH fs [] 1 K2 W2 eq_refl) as (ws & S & R).
      exists ((delta, w) :: ws). fold send_fields. rewrite S. split; [reflexivity|]. cbn [receive_fields]. fold receive_fields.
      replace (delta - 1) with (length skipped) by lia.
      rewrite skipn_app_exact, firstn_app_exact by reflexivity. rewrite R1. cbn [bind]. cbn [app map] in R. rewrite R. reflexivity.
Qed.

Lemma arrives v : arrives_field v /\ arrives_elem v.
Proof.
  induction v as [s|z|b|f| |x [IHf IHe]| |l IH|vs IH] using val_induction; split; intros t K W.
  - cbn [van gob_send]. destruct (String.eqb s ""); [reflexivity|]. exists (WStr s). split; [reflexivity|].
    cbn [wt] in W. cbn [gob_receive]. rewrite (nonptr_kind t K) by (rewrite W; discriminate). cbn. rewrite W. reflexivity.
  - exists (WStr s). split; [cbn; rewrite andb_false_r; reflexivity|]. apply elem_ok_ok in K.
    cbn [wt] in W. cbn [gob_receive]. rewrite (nonptr_kind t K) by (rewrite W; discriminate). cbn. rewrite W. reflexivity.
  - cbn [van gob_send]. destruct (Z.eqb z 0); [reflexivity|]. exists (WInt z). split; [reflexivity|].
    cbn [wt] in W. cbn [gob_receive]. rewrite (nonptr_kind t K) by (rewrite W; discriminate). cbn. rewrite W. reflexivity.
  - exists (WInt z). split; [cbn; rewrite andb_false_r; reflexivity|]. apply elem_ok_ok in K.
    cbn [wt] in W. cbn [gob_receive]. rewrite (nonptr_kind t K) by (rewrite W; discriminate). cbn. rewrite W. reflexivity.
  - cbn [van gob_send]. destruct (negb b); [reflexivity|]. exists (WBool b). split; [reflexivity|].
    cbn [wt] in W. cbn [gob_receive]. rewrite (nonptr_kind t K) by (rewrite W; discriminate). cbn. rewrite W. reflexivity.
  - exists (WBool b). split; [cbn; rewrite andb_false_r; reflexivity|]. apply elem_ok_ok in K.
    cbn [wt] in W. cbn [gob_receive]. rewrite (nonptr_kind t K) by (rewrite W; discriminate). cbn. rewrite W. reflexivity.
  - cbn [van gob_send canon]. destruct (float_is_zero f); [reflexivity|]. exists (WFlt f). split; [reflexivity|].
    cbn [wt] in W. cbn [gob_receive]. rewrite (nonptr_kind t K) by (rewrite W; discriminate). cbn. rewrite W. reflexivity.
  - cbn [wt] in W. unfold elem_ok in K. rewrite W in K. discriminate.
  - reflexivity.
  - cbn [wt] in W. unfold elem_ok in K. destruct (kind_of t); try contradiction; discriminate.
  - cbn [wt] in W. destruct (kind_of t) as [| | | |t'| | |] eqn:E; try contradiction.
    destruct (kind_ptr t t' K E) as (-> & K'). specialize (IHf t' K' W). cbn [van gob_send canon].
    destruct (van x); [exact IHf|]. destruct IHf as (w & S & R). exists w. split; [exact S|].
    rewrite gob_receive_ptr, R. reflexivity.
  - cbn [wt] in W. unfold elem_ok in K. destruct (kind_of t); try contradiction; discriminate.
  - reflexivity.
  - cbn [wt] in W. unfold elem_ok in K. destruct (kind_of t); try contradiction; discriminate.
  - cbn [wt] in W. destruct (kind_of t) as [| | | | |t'| |] eqn:E; try contradiction.
    pose proof (slice_ok t t' K E) as K'.
    destruct (elements_arrive l t' K') as (ws & S & R & L); [|exact W|].
    { rewrite Forall_forall in *. intros y Hy. apply IH, Hy. }
    cbn [gob_send]. fold send_elements. rewrite S. destruct l as [|y l]; cbn [van].
    + destruct ws; [reflexivity|discriminate].
    + destruct ws as [|w ws]; [discriminate|]. cbn [negb andb]. exists (WSlice (w :: ws)). split; [reflexivity|].
      cbn [gob_receive]. rewrite (nonptr_kind t K) by (rewrite E; discriminate). rewrite E. fold (receive_elements t').
      change (bind (gob_receive w t') (fun x => bind (receive_elements t' ws) (fun l => Ok (x :: l)))) with (receive_elements t' (w :: ws)).
      rewrite R. reflexivity.
  - cbn [wt] in W. unfold elem_ok in K. destruct (kind_of t); try contradiction; discriminate.
  - cbn [wt] in W. destruct (kind_of t) as [| | | | | |fs|] eqn:E; try contradiction.
    destruct (fields_arrive vs) with (fs := fs) (skipped := @nil field) (delta := 1) as (ws & S & R); auto.
    { rewrite Forall_forall in *. intros y Hy. apply IH, Hy. }
    { eapply struct_ok, E. }
    cbn [van gob_send canon]. fold send_fields. rewrite S. exists (WStruct ws). split; [reflexivity|].
    cbn [gob_receive]. fold receive_fields. rewrite (nonptr_kind t K) by (rewrite E; discriminate). rewrite E.
    cbn [app map] in R. rewrite R. reflexivity.
  - cbn [wt] in W. destruct (kind_of t) as [| | | | | |fs|] eqn:E; try contradiction.
    destruct (fields_arrive vs) with (fs := fs) (skipped := @nil field) (delta := 1) as (ws & S & R); auto.
    { rewrite Forall_forall in *. intros y Hy. apply IH, Hy. }
    { eapply struct_ok, E. }
    cbn [van gob_send canon]. fold send_fields. rewrite S. exists (WStruct ws). split; [reflexivity|].
    apply elem_ok_ok in K.
    cbn [gob_receive]. fold receive_fields. rewrite (nonptr_kind t K) by (rewrite E; discriminate). rewrite E.
    cbn [app map] in R. rewrite R. reflexivity.
Qed.

(** ** The function and the specification *)
Lemma van_iff v : van v = true <-> vanishes v.
Proof.
  induction v as [s|z|b|f| |x IH| |l IH|vs IH] using val_induction; cbn [van].
  - rewrite String.eqb_eq. split; [intros ->; constructor|inversion 1; reflexivity].
  - rewrite Z.eqb_eq. split; [intros ->; constructor|inversion 1; reflexivity].
  - destruct b; cbn; split; try discriminate; try constructor; inversion 1.
  - destruct f as [neg [|m] e|neg|]; cbn; split; try discriminate; try constructor; inversion 1.
  - split; constructor.
  - rewrite IH. split; [constructor; assumption|inversion 1; assumption].
  - split; constructor.
  - destruct l; split; try discriminate; try constructor; inversion 1.
  - split; [discriminate|inversion 1].
Qed.
Lemma van_false v : van v = false <-> ~ vanishes v.
Proof. rewrite <- van_iff. destruct (van v); split; congruence. Qed.

Lemma copied_canon v : copied v (canon v).
Proof.
  induction v as [s|z|b|f| |x IH| |l IH|vs IH] using val_induction; cbn [canon]; try (constructor; fail).
  - destruct (float_is_zero f) eqn:E.
    + apply cp_zero, van_iff, E.
    + apply cp_flt, van_false, E.
  - destruct (van x) eqn:E; [apply cp_lost, van_iff, E|apply cp_ptr; [apply van_false, E|exact IH]].
  - destruct l as [|x l]; [constructor|]. cbn [map]. apply cp_list. change (canon x :: map canon l) with (map canon (x :: l)).
    clear -IH. induction IH; cbn; constructor; auto.
  - apply cp_struct. induction IH; cbn; constructor; auto.
Qed.

Lemma copied_fun v w : copied v w -> w = canon v.
Proof.
  revert w. induction v as [s|z|b|f| |x IH| |l IH|vs IH] using val_induction; intros w H; inversion H; subst; cbn [canon]; try reflexivity.
  - apply van_false in H1. cbn [van] in H1. rewrite H1. reflexivity.
  - apply van_iff in H1. cbn [van] in H1. rewrite H1. reflexivity.
  - apply van_iff in H1. rewrite H1. reflexivity.
  - apply van_false in H1. rewrite H1. do 2 f_equal. auto.
  - do 2 f_equal. inversion H1 as [|? ? ? ? Ha H2]; subst. apply Forall_cons_iff in IH as (I1 & I2). cbn [map].
    f_equal; [auto|]. clear -H2 I2. revert I2. induction H2; intros I; [reflexivity|]. apply Forall_cons_iff in I as (J1 & J2). cbn. f_equal; auto.
  - f_equal. clear -H1 IH. revert IH. induction H1; intros I; [reflexivity|]. apply Forall_cons_iff in I as (J1 & J2). cbn. f_equal; auto.
Qed.

Lemma nothing_to_lose_iff v : nothing_to_lose v <-> canon v = v.
Proof.
  induction v as [s|z|b|f| |x IH| |l IH|vs IH] using val_induction; cbn [canon]; try (split; [reflexivity|constructor]; fail).
  - split.
    + inversion 1; subst. destruct H1 as [->|H1]; [reflexivity|]. apply van_false in H1. cbn in H1. rewrite H1. reflexivity.
    + intros H. constructor. destruct (float_is_zero f) eqn:E; [left; congruence|right]. apply van_false. exact E.
  - split.
    + inversion 1; subst. apply van_false in H1. rewrite H1. do 2 f_equal. apply IH. assumption.
    + destruct (van x) eqn:E; intros [= H]. apply nl_ptr; [apply van_false, E|apply IH; assumption].
  - destruct l as [|x l]; [split; [inversion 1|discriminate]|]. split.
    + inversion 1; subst. do 2 f_equal. change (map canon (x :: l) = x :: l). clear -H1 IH. induction H1; [reflexivity|].
      apply Forall_cons_iff in IH as (I1 & I2). cbn. f_equal; [apply I1; assumption|auto].
    + intros [= H1 H2]. apply nl_list. assert (H3 : map canon (x :: l) = x :: l) by (cbn; congruence).
      clear -IH H3. induction (x :: l) as [|y m IHm]; constructor; injection H3 as H4 H5; apply Forall_cons_iff in IH as (I1 & I2); [apply I1; assumption|auto].
  - split.
    + inversion 1; subst. f_equal. clear -H1 IH. induction H1; [reflexivity|].
      apply Forall_cons_iff in IH as (I1 & I2). cbn. f_equal; [apply I1; assumption|auto].
    + intros [= H3]. apply nl_struct. 
      clear -IH H3. induction vs as [|y m IHm]; constructor; injection H3 as H4 H5; apply Forall_cons_iff in IH as (I1 & I2); [apply I1; assumption|auto].
Qed.

Lemma van_canon v : van v = false -> van (canon v) = false.
Proof.
  induction v as [s|z|b|f| |x IH| |l IH|vs IH] using val_induction; cbn [van canon]; auto.
  - intros H. rewrite H. exact H.
  - intros H. rewrite H. cbn [van]. auto.
  - destruct l; auto.
Qed.
Lemma canon_canon v : canon (canon v) = canon v.
Proof.
  induction v as [s|z|b|f| |x IH| |l IH|vs IH] using val_induction; cbn [canon]; auto.
  - destruct (float_is_zero f) eqn:E; cbn; [reflexivity|]. rewrite E. reflexivity.
  - destruct (van x) eqn:E; [reflexivity|]. rewrite (van_canon x E), IH. reflexivity.
  - destruct l as [|x l]; [reflexivity|]. cbn [map canon]. do 2 f_equal.
    change (map canon (map canon (x :: l)) = map canon (x :: l)). rewrite map_map. apply map_ext_in.
    rewrite Forall_forall in IH. exact IH.
  - f_equal. rewrite map_map. apply map_ext_in. rewrite Forall_forall in IH. exact IH.
Qed.

(** [canon] keeps types. *)
Lemma wt_canon v : forall t, wt t v -> wt t (canon v).
Proof.
  induction v as [s|z|b|f| |x IH| |l IH|vs IH] using val_induction; intros t W; cbn [canon]; auto.
  - cbn [wt] in *. destruct (kind_of t); try contradiction. destruct (van x); auto.
  - destruct l as [|x l]; [cbn [wt] in *; destruct (kind_of t); auto|]. cbn [wt] in *. destruct (kind_of t); try contradiction.
    rewrite list_all_forall in *. rewrite Forall_map. rewrite Forall_forall in *. intros y Hy. apply IH; auto.
  - cbn [wt] in *. destruct (kind_of t) as [| | | | | |fs|]; try contradiction. revert fs W.
    induction IH as [|y l Hy _ IHl]; intros [|f fs] W; cbn in *; auto. destruct W; auto.
Qed.

(** ** The copy of a BOM *)
Definition settle (b : BOM) : BOM := reflect_BOM (canon (reify_BOM b)).

Lemma copy_settle b : copy b = Ok (settle b).
Proof.
  unfold copy. pose proof (proj1 (arrives (reify_BOM b)) (TRef "BOM") eq_refl (typed_BOM b)) as A.
  change (van (reify_BOM b)) with false in A. cbv iota in A. destruct A as (w & S & R). rewrite S, R. reflexivity.
Qed.

Lemma reify_settle b : reify_BOM (settle b) = canon (reify_BOM b).
Proof. unfold settle. apply vni_BOM. apply wt_canon, typed_BOM. Qed.

Lemma copy_total b : exists c, copy b = Ok c /\ copied (reify_BOM b) (reify_BOM c).
Proof. exists (settle b). split; [apply copy_settle|]. rewrite reify_settle. apply copied_canon. Qed.

Lemma copy_unique b c : copy b = Ok c <-> copied (reify_BOM b) (reify_BOM c).
Proof.
  rewrite copy_settle. split.
  - intros [= <-]. rewrite reify_settle. apply copied_canon.
  - intros H. apply copied_fun in H. f_equal. unfold settle. rewrite <- H. apply inv_BOM.
Qed.

Lemma copy_exact b : copy b = Ok b <-> nothing_to_lose (reify_BOM b).
Proof.
  rewrite nothing_to_lose_iff, copy_settle. split.
  - intros [= H]. rewrite <- reify_settle, H. reflexivity.
  - intros H. unfold settle. rewrite H, inv_BOM. reflexivity.
Qed.

Lemma copy_again b c : copy b = Ok c -> copy c = Ok c.
Proof.
  rewrite copy_settle. intros [= <-]. rewrite copy_exact, nothing_to_lose_iff, reify_settle. apply canon_canon.
Qed.

Lemma copyAndConvert_settle sv b : copyAndConvert sv b = Ok (convert sv (settle b)).
Proof. unfold copyAndConvert. rewrite copy_settle. reflexivity. Qed.
