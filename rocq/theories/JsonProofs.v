(** Proofs about the JSON codec: what is written is read back as [jback] says. *)
From Verif Require Import Base Types Univ TypeTable Wt Reify ReifyBase Consts LinkModel Version VersionProofs Numbers NumbersProofs Utf8 Utf8Proofs GobModel GobProofs JsonModel JsonBack.
From Coq Require Import Lia.
Local Open Scope string_scope.

Definition shape_of (j : json) : shape :=
  match j with
  | JNull => SNull
  | JBool b => SBool b
  | JNum lit => SNum lit
  | JStr s => SStr s
  | JArr l => SArr (map jdec l)
  | JObj ms => SObj (map (fun m => (fst m, mkMember (is_null (snd m)) (jdec (snd m)))) ms)
  end.
Lemma jdec_eq j : jdec j = node (shape_of j).
Proof. destruct j; reflexivity. Qed.

Definition encs :=
  fix fields (vs : list val) (fs : list field) {struct vs} : list encoded :=
    match vs, fs with
    | x :: vs', f :: fs' => (fun esc => jenc esc (f_ty f) x) :: fields vs' fs'
    | _, _ => []
    end.
Definition backs :=
  fix each (vs : list val) (fs : list field) {struct vs} : list val :=
    match vs, fs with
    | x :: vs', f :: fs' => jback (f_ty f) x :: each vs' fs'
    | _, _ => []
    end.
Definition enc_elements (esc : bool) (t : ty) :=
  fix elements (l : list val) : result jerr (list out) :=
    match l with
    | [] => Ok []
    | x :: l' => bind (jenc esc t x) (fun o => bind (elements l') (fun os => Ok (o :: os)))
    end.
Lemma jenc_struct esc t vs :
  jenc esc t (VStruct vs) =
    match marshal_hook t with
    | HNone => enc_struct esc (fields_of t) vs (encs vs (fields_of t))
    | h => scanned (marshal h (fields_of t) vs (encs vs (fields_of t)))
    end.
Proof. reflexivity. Qed.
Lemma jenc_slice esc t l : jenc esc t (VSlice (Some l)) = bind (enc_elements esc (elem_ty t) l) (fun os => Ok (OArr os)).
Proof. reflexivity. Qed.
Lemma jback_struct t vs : jback t (VStruct vs) = VStruct (back_choice (marshal_hook t) (fields_of t) vs (backs vs (fields_of t))).
Proof. reflexivity. Qed.

Lemma bind_ok {E A B} (r : result E A) (f : A -> result E B) y : bind r f = Ok y -> exists x, r = Ok x /\ f x = Ok y.
Proof. destruct r; cbn; [eauto|discriminate]. Qed.

(** ** Facts about the table, by computation *)
Fixpoint ty_eqb (a b : ty) : bool :=
  match a, b with
  | TStr, TStr | TInt, TInt | TBool, TBool | TF32, TF32 | TF64, TF64 => true
  | TPtr x, TPtr y | TSlice x, TSlice y => ty_eqb x y
  | TRef x, TRef y => String.eqb x y
  | _, _ => false
  end.
Lemma ty_eqb_eq a : forall b, ty_eqb a b = true -> a = b.
Proof.
  induction a; intros [] H; cbn in H; try discriminate; try reflexivity; try (f_equal; auto; fail).
  apply String.eqb_eq in H. congruence.
Qed.

(** The members written for [fs1] can be read as [fs2]: equal names have equal types, and
    no two names lead to the same field. *)
Fixpoint cross_ok (fs1 fs2 : list field) (used : list nat) : bool :=
  match fs1 with
  | [] => true
  | f :: fs1' =>
      match json_info f with
      | None => cross_ok fs1' fs2 used
      | Some (n, _) =>
          match find_field fs2 n with
          | None => cross_ok fs1' fs2 used
          | Some j =>
              match nth_error fs2 j with
              | Some g => ty_eqb (f_ty f) (f_ty g) && negb (existsb (Nat.eqb j) used) && cross_ok fs1' fs2 (j :: used)
              | None => false
              end
          end
      end
  end.

Fixpoint indexed (fs : list field) (i : nat) (all : list field) : bool :=
  match fs with
  | [] => true
  | f :: fs' =>
      match json_info f with
      | None => true
      | Some (n, _) => match find_field all n with Some j => Nat.eqb i j | None => false end
      end && indexed fs' (S i) all
  end.

Definition struct_facts (fs : list field) : bool := (cross_ok fs fs [] && indexed fs 0 fs)%bool.
Lemma defs_facts : forallb (fun d => match snd d with DStruct fs => struct_facts fs | DAlias _ => true end) defs = true.
Proof. vm_compute. reflexivity. Qed.
Lemma defs_zero : map (fun d => match snd d with DStruct fs => map (fun f => zero_n 3 (f_ty f)) fs | DAlias _ => [] end) defs
                = map (fun d => match snd d with DStruct fs => zeros_of fs | DAlias _ => [] end) defs.
Proof. vm_compute. reflexivity. Qed.

Lemma kind_struct_in t fs : kind_of t = KStruct fs -> exists n, t = TRef n /\ In (n, DStruct fs) defs.
Proof.
  destruct t; cbn [kind_of kind_base]; try discriminate.
  destruct (assoc name defs) as [[fs'|t]|] eqn:E; try discriminate.
  - intros [= ->]. apply assoc_in in E. eauto.
  - destruct t; discriminate.
Qed.
Lemma kind_struct_facts t fs : kind_of t = KStruct fs -> cross_ok fs fs [] = true /\ indexed fs 0 fs = true.
Proof.
  intros E. apply kind_struct_in in E as (n & _ & E). pose proof defs_facts as D. rewrite forallb_forall in D.
  specialize (D _ E). cbn in D. apply andb_prop in D. exact D.
Qed.
Lemma zero_struct t fs : kind_of t = KStruct fs -> zero_of t = VStruct (zeros_of fs).
Proof.
  intros E. unfold zero_of. cbn [zero_n]. rewrite E. f_equal. apply kind_struct_in in E as (n & _ & E).
  pose proof defs_zero as D. revert D E. generalize defs. induction l as [|d l IH]; [contradiction|].
  cbn [map]. intros D [->|E].
  - injection D as D _. exact D.
  - injection D as _ D. apply IH; assumption.
Qed.

(** ** Reading the members of an object *)
Definition members (ms : list (string * out)) : list (string * member) :=
  map (fun m => (fst m, mkMember (is_null (erase (snd m))) (jdec (erase (snd m))))) ms.
Lemma shape_obj ms : shape_of (erase (OObj ms)) = SObj (members ms).
Proof. cbn. f_equal. unfold members. rewrite map_map. reflexivity. Qed.

Definition decodes (t : ty) (e : encoded) (b : val) : Prop :=
  forall esc o, e esc = Ok o -> jdec (erase o) t (zero_of t) = DVal b None.

Inductive rows : list field -> list val -> list encoded -> list val -> Prop :=
| rows_nil : rows [] [] [] []
| rows_cons f v e b fs vs es bs : decodes (f_ty f) e b -> rows fs vs es bs -> rows (f :: fs) (v :: vs) (e :: es) (b :: bs).

(** Where the members written for [fs1] end up in [fs2]. *)
Fixpoint cross (fs1 : list field) (bs : list val) (fs2 : list field) (acc : list val) : list val :=
  match fs1, bs with
  | f :: fs1', b :: bs' =>
      cross fs1' bs' fs2
        match json_info f with
        | Some (n, _) => match find_field fs2 n with Some j => set_nth j b acc | None => acc end
        | None => acc
        end
  | _, _ => acc
  end.

Lemma set_nth_same {A} j (x : A) l : nth_error l j = Some x -> set_nth j x l = l.
Proof.
  revert j. induction l as [|y l IH]; intros [|j] H; cbn in *; try discriminate; try congruence.
  f_equal. auto.
Qed.
Lemma nth_set_other {A} i j (x : A) l : i <> j -> nth_error (set_nth j x l) i = nth_error l i.
Proof.
  revert i j. induction l as [|y l IH]; intros [|i] [|j] H; cbn; try reflexivity; try congruence.
  apply IH. congruence.
Qed.

Lemma dec_cross fs1 vs es bs : rows fs1 vs es bs ->
  forall fs2 used acc esc ms, cross_ok fs1 fs2 used = true ->
    (forall j g, nth_error fs2 j = Some g -> existsb (Nat.eqb j) used = false -> nth_error acc j = Some (zero_of (f_ty g))) ->
    enc_members esc fs1 vs es = Ok ms ->
    dec_members (members ms) fs2 acc = inl (cross fs1 (back_fields fs1 vs bs) fs2 acc, None).
Proof.
  induction 1 as [|f v e b fs vs es bs D R IH]; intros fs2 used acc esc ms C Z E.
  - cbn in E. injection E as <-. reflexivity.
  - cbn [cross_ok] in C. cbn [enc_members] in E. cbn [back_fields cross].
    destruct (json_info f) as [[n om]|]; [|eapply IH; eassumption].
    destruct (find_field fs2 n) as [j|] eqn:Fj.
    + destruct (nth_error fs2 j) as [g|] eqn:G; [|discriminate].
      apply andb_prop in C as (C & C3). apply andb_prop in C as (C1 & C2).
      apply ty_eqb_eq in C1. apply negb_true_iff in C2. pose proof (Z j g G C2) as Zj. rewrite <- C1 in Zj.
      assert (Z' : forall x j' g', nth_error fs2 j' = Some g' -> existsb (Nat.eqb j') (j :: used) = false ->
                   nth_error (set_nth j x acc) j' = Some (zero_of (f_ty g'))).
      { intros x j' g' G' U. cbn in U. apply orb_false_iff in U as (U1 & U2). apply Nat.eqb_neq in U1.
        rewrite nth_set_other by exact U1. apply Z; assumption. }
      destruct (om && empty_value v)%bool.
      * rewrite <- (set_nth_same j (zero_of (f_ty f)) acc Zj) at 1. eapply IH; eauto.
      * apply bind_ok in E as (o & Eo & E). apply bind_ok in E as (ms' & Em & E). injection E as <-.
        cbn [members map fst snd dec_members]. rewrite Fj, G, Zj. cbn [m_dec]. rewrite <- C1, (D _ _ Eo).
        fold (members ms'). rewrite (IH fs2 (j :: used) (set_nth j b acc) esc ms' C3 (Z' b) Em). reflexivity.
    + destruct (om && empty_value v)%bool; [eapply IH; eassumption|].
      apply bind_ok in E as (o & Eo & E). apply bind_ok in E as (ms' & Em & E). injection E as <-.
      cbn [members map fst snd dec_members]. rewrite Fj. fold (members ms'). eapply IH; eassumption.
Qed.

Lemma zeros_nth fs j g : nth_error fs j = Some g -> nth_error (zeros_of fs) j = Some (zero_of (f_ty g)).
Proof. intros H. unfold zeros_of. apply map_nth_error with (f := fun f => zero_of (f_ty f)), H. Qed.

Lemma set_nth_app {A} (l1 l2 : list A) x y : set_nth (length l1) x (l1 ++ y :: l2) = (l1 ++ x :: l2)%list.
Proof. induction l1; cbn; [reflexivity|f_equal; auto]. Qed.

Lemma cross_self all fs vs bs : length vs = length fs -> length bs = length fs ->
  forall pre, indexed fs (length pre) all = true ->
    cross fs (back_fields fs vs bs) all (pre ++ zeros_of fs) = (pre ++ back_fields fs vs bs)%list.
Proof.
  revert vs bs. induction fs as [|f fs IH]; intros vs bs L1 L2 pre I.
  - reflexivity.
  - destruct vs as [|v vs]; [discriminate|]. destruct bs as [|b bs]; [discriminate|]. injection L1 as L1. injection L2 as L2.
    cbn [indexed] in I. apply andb_prop in I as (I1 & I2). cbn [back_fields cross zeros_of map].
    destruct (json_info f) as [[n om]|].
    + destruct (find_field all n) as [j|]; [|discriminate]. apply Nat.eqb_eq in I1. subst j.
      rewrite set_nth_app. set (x := if (om && empty_value v)%bool then _ else _).
      specialize (IH vs bs L1 L2 (pre ++ [x])%list). rewrite app_length in IH. cbn [length] in IH. rewrite Nat.add_1_r in IH.
      specialize (IH I2). rewrite <- !app_assoc in IH. exact IH.
    + specialize (IH vs bs L1 L2 (pre ++ [zero_of (f_ty f)])%list). rewrite app_length in IH. cbn [length] in IH. rewrite Nat.add_1_r in IH.
      specialize (IH I2). rewrite <- !app_assoc in IH. exact IH.
Qed.

Lemma rows_length fs vs es bs : rows fs vs es bs -> length vs = length fs /\ length es = length fs /\ length bs = length fs.
Proof. induction 1 as [|? ? ? ? ? ? ? ? ? ? (A & B & C)]; cbn; repeat split; congruence. Qed.

(** Reading back a struct written field by field. *)
Lemma plain_self t fs vs es bs esc o : kind_of t = KStruct fs -> rows fs vs es bs -> enc_struct esc fs vs es = Ok o ->
  plain (shape_of (erase o)) t (zero_of t) = DVal (VStruct (back_fields fs vs bs)) None.
Proof.
  intros K R E. apply bind_ok in E as (ms & E & Eo). injection Eo as <-. rewrite shape_obj. unfold plain. rewrite K.
  rewrite (zero_struct t fs K). cbn [fields_of_val dec_struct].
  destruct (kind_struct_facts t fs K) as (C & I).
  rewrite (dec_cross fs vs es bs R fs [] (zeros_of fs) esc ms C); [|intros; apply zeros_nth; assumption|exact E].
  destruct (rows_length _ _ _ _ R) as (L1 & _ & L3).
  pose proof (cross_self fs fs vs bs L1 L3 [] I) as S. cbn [app] in S. rewrite S. reflexivity.
Qed.

(** Reading back as other fields. *)
Lemma struct_cross fs vs es bs esc o fs2 : rows fs vs es bs -> enc_struct esc fs vs es = Ok o ->
  cross_ok fs fs2 [] = true ->
  dec_struct (shape_of (erase o)) fs2 (zeros_of fs2) = inl (cross fs (back_fields fs vs bs) fs2 (zeros_of fs2), None).
Proof.
  intros R E C. apply bind_ok in E as (ms & E & Eo). injection Eo as <-. rewrite shape_obj. cbn [dec_struct].
  eapply dec_cross; eauto. intros; apply zeros_nth; assumption.
Qed.
Lemma plain_cross t fs2 fs vs es bs esc o : kind_of t = KStruct fs2 -> rows fs vs es bs -> enc_struct esc fs vs es = Ok o ->
  cross_ok fs fs2 [] = true ->
  plain (shape_of (erase o)) t (zero_of t) = DVal (VStruct (cross fs (back_fields fs vs bs) fs2 (zeros_of fs2))) None.
Proof.
  intros K R E C. unfold plain. rewrite K, (zero_struct t fs2 K). cbn [fields_of_val].
  rewrite (struct_cross fs vs es bs esc o fs2 R E C). reflexivity.
Qed.
