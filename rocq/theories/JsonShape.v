(** What is written is known to the schema, if the Go types fit the schema: for C45. *)
From Verif Require Import Base Types Univ TypeTable Wt ReifyBase Reify ReifyFacts Consts LinkModel Version ConvertSpec Numbers NumbersProofs Utf8 Utf8Proofs GobModel JsonModel JsonSpec GobProofs JsonBack JsonProofs JsonRound JsonDecode JsonBom JsonTyped JsonTextRound SchemaSpec SchemaProofs ShapeSpec.
From Coq Require Import Lia.
Local Open Scope string_scope.

(** ** Does a schema know all that a type can write? *)

(** What a value of the type is written as: as a value of one of these types, or as an empty
    object *)
Definition forms (t : ty) : list (option ty) :=
  let t := base t in
  match marshal_hook t with
  | HNone | HLicense => [Some t]
  | HSpecVersion => [Some TStr]
  | HEnvironmentVariable => [Some (TRef "Property"); Some TStr; None]
  | HDataset => [Some (TRef "mlDatasetChoiceRefJSON"); Some (TRef "ComponentData"); None]
  | HTools => [Some (TSlice (TRef "Tool")); Some (TRef "toolsChoiceJSON")]
  | HIdentity => [Some (TRef "EvidenceIdentity"); Some (TSlice (TRef "EvidenceIdentity"))]
  | HCertState => [Some (TRef "PredefinedCertificateState"); Some (TRef "CustomCertificateState"); None]
  | HCertExtension => [Some (TRef "CommonCertificateExtension"); Some (TRef "CustomCertificateExtension"); None]
  | HPatent => [Some (TRef "Patent"); Some (TRef "PatentFamily"); None]
  | HIKEv2 => [Some (TRef "BOMReference"); Some t]
  | HAsserter => [Some (TRef "AsserterChoice")]
  end.
(** What is written in parts: an empty object, an object of one member, an empty list, a list of
    one item, or what has no parts *)
Inductive atom := AEmpty | AField (g : field) | ANil | AElem (f : option ty) | AKind (k : ascii).
Definition atoms (f : option ty) : list atom :=
  match f with
  | None => [AEmpty]
  | Some t =>
      match kind_of t with
      | KStruct fs => AEmpty :: map AField (filter (fun g => match json_info g with Some _ => true | None => false end) fs)
      | KSlice t' => ANil :: map AElem (forms t')
      | KStr => [AKind "s"%char]
      | KInt => [AKind "i"%char]
      | KFlt => [AKind "f"%char]
      | KBool => [AKind "b"%char]
      | _ => [AKind "?"%char]
      end
  end.
Definition form_eqb (a b : option ty) : bool := match a, b with Some x, Some y => ty_eqb x y | None, None => true | _, _ => false end.
Definition atom_eqb (a b : atom) : bool :=
  match a, b with
  | AEmpty, AEmpty | ANil, ANil => true
  | AField g, AField h => if String.eqb (f_name g) (f_name h) then if ty_eqb (f_ty g) (f_ty h) then if String.eqb (f_tag g) (f_tag h) then Bool.eqb (f_embedded g) (f_embedded h) else false else false else false
  | AElem f, AElem g => form_eqb f g
  | AKind k, AKind l => Ascii.eqb k l
  | _, _ => false
  end.
Definition key := (string * atom)%type.
Definition key_eqb (a b : key) : bool := if String.eqb (fst a) (fst b) then atom_eqb (snd a) (snd b) else false.
Definition key_in (k : key) (R : list key) : bool := existsb (key_eqb k) R.
Fixpoint fits (R : list key) (s : schema) (a : atom) {struct s} : bool :=
  match s with
  | Anything => true
  | Ref n => key_in (n, a) R
  | OneOf l => existsb (fun s' => fits R s' a) l
  | Text | Filled | Words _ => match a with AKind "s"%char => true | _ => false end
  | Whole => match a with AKind "i"%char => true | _ => false end
  | Number => match a with AKind "f"%char => true | _ => false end
  | Truth => match a with AKind "b"%char => true | _ => false end
  | ListOf s' => match a with ANil => true | AElem f => forallb (fits R s') (atoms f) | _ => false end
  | Object ms _ =>
      match a with
      | AEmpty => true
      | AField g =>
          match json_info g with
          | Some (n, _) => (existsb (fun m => String.eqb n (fst m)) ms
                            && forallb (fun m => if String.eqb n (fst m) then forallb (fun f => forallb (fits R (snd m)) (atoms f)) (forms (f_ty g)) else true) ms)%bool
          | None => true
          end
      | _ => false
      end
  end.
(** The alternatives of a schema *)
Fixpoint cores (d : schemas) (fuel : nat) (s : schema) : list schema :=
  match fuel with
  | O => []
  | S fuel' =>
      match s with
      | Ref n => match assoc n d with Some s' => cores d fuel' s' | None => [] end
      | OneOf l => flat_map (cores d fuel') l
      | _ => [s]
      end
  end.
Definition known (d : schemas) (R : list key) (k : key) : bool := existsb (fun c => fits R c (snd k)) (cores d 8 (Ref (fst k))).
Definition all_known (d : schemas) (R : list key) : bool := forallb (known d R) R.

(** The keys that may matter, and of these the largest set that is known *)
Fixpoint keys (s : schema) (a : atom) {struct s} : list key :=
  match s with
  | Ref n => [(n, a)]
  | OneOf l => flat_map (fun s' => keys s' a) l
  | ListOf s' => match a with AElem f => flat_map (keys s') (atoms f) | _ => [] end
  | Object ms _ =>
      match a with
      | AField g => match json_info g with
                    | Some (n, _) => flat_map (fun m => if String.eqb n (fst m) then flat_map (fun f => flat_map (keys (snd m)) (atoms f)) (forms (f_ty g)) else []) ms
                    | None => []
                    end
      | _ => []
      end
  | _ => []
  end.
Fixpoint gather (d : schemas) (fuel : nat) (todo seen : list key) : list key :=
  match fuel, todo with
  | S fuel', k :: todo' =>
      if key_in k seen then gather d fuel' todo' seen
      else gather d fuel' (flat_map (fun c => keys c (snd k)) (cores d 8 (Ref (fst k))) ++ todo')%list (k :: seen)
  | _, _ => seen
  end.
Fixpoint refine (d : schemas) (fuel : nat) (R : list key) : list key :=
  match fuel with O => R | S fuel' => let R' := filter (known d R) R in if Nat.eqb (length R') (length R) then R else refine d fuel' R' end.
Definition top : list key := map (pair "") (atoms (Some (TRef "BOM"))).
Definition known_keys (d : schemas) : list key := refine d 40 (gather d (N.to_nat 20000) top []).
Definition covers (d : schemas) : bool := let R := known_keys d in if all_known d R then forallb (fun k => key_in k R) top else false.

(** ** It does if it says so *)
Lemma key_in_spec k R : key_in k R = true -> In k R.
Proof.
  unfold key_in. rewrite existsb_exists. intros ((n, b) & I & E). destruct k as [m a]. unfold key_eqb in E. cbn [fst snd] in E. destruct (String.eqb_spec m n) as [->|]; [|discriminate].
  assert (F : forall x y, form_eqb x y = true -> x = y) by (intros [x|] [y|] Q; cbn in Q; try discriminate; [apply ty_eqb_eq in Q; subst|]; reflexivity).
  destruct a as [|g| |f|k], b as [|h| |f'|k']; cbn [atom_eqb] in E; try discriminate E; try exact I.
  - destruct g as [a1 a2 a3 a4], h as [b1 b2 b3 b4]. cbn in E. destruct (String.eqb_spec a1 b1) as [->|]; [|discriminate]. destruct (ty_eqb a2 b2) eqn:T; [|discriminate]. apply ty_eqb_eq in T. subst. destruct (String.eqb_spec a3 b3) as [->|]; [|discriminate]. apply Bool.eqb_prop in E. subst. exact I.
  - apply F in E. subst. exact I.
  - apply Ascii.eqb_eq in E. subst. exact I.
Qed.
Section SchemaInd.
  Variable P : schema -> Prop.
  Hypothesis Hone : forall l, Forall P l -> P (OneOf l).
  Hypothesis Hother : forall s, (forall l, s <> OneOf l) -> P s.
  Fixpoint one_induction (s : schema) : P s :=
    match s with
    | OneOf l => Hone l ((fix go l : Forall P l := match l with [] => Forall_nil P | x :: l' => Forall_cons x (one_induction x) (go l') end) l)
    | s' => Hother s' ltac:(discriminate)
    end.
End SchemaInd.
Definition core (s : schema) : Prop := match s with Ref _ | OneOf _ => False | _ => True end.
Lemma cores_core d fuel : forall s c, In c (cores d fuel s) -> core c.
Proof.
  induction fuel as [|fuel IH]; intros s c H; [contradiction|]. destruct s; cbn [cores] in H; try (destruct H as [<-|[]]; exact Logic.I).
  - destruct (assoc n d) as [s'|]; [exact (IH s' c H)|contradiction].
  - apply in_flat_map in H as (s' & _ & H). exact (IH s' c H).
Qed.
Lemma cores_shaped d j fuel : forall s c, In c (cores d fuel s) -> shaped d c j -> shaped d s j.
Proof.
  induction fuel as [|fuel IH]; intros s c H S; [contradiction|]. destruct s; cbn [cores] in H; try (destruct H as [<-|[]]; exact S).
  - destruct (assoc n d) as [s'|] eqn:A; [|contradiction]. exact (sh_ref d n s' j A (IH s' c H S)).
  - apply in_flat_map in H as (s' & I & H). exact (sh_one d l s' j I (IH s' c H S)).
Qed.
(** What is shaped member by member, or item by item, is shaped. *)
Lemma members_shaped d s k0 j0 : shaped d s (JObj [(k0, j0)]) -> forall ms, In (k0, j0) ms -> (forall k j, In (k, j) ms -> shaped d s (JObj [(k, j)])) -> shaped d s (JObj ms).
Proof.
  intros S. remember (JObj [(k0, j0)]) as o eqn:E. induction S; try discriminate E; intros xs Hx A.
  - apply sh_object. intros k j Hk. pose proof (A k j Hk) as S. inversion S as [| | | | | | | |a b l0 Hl| | | | |]; subst. apply Hl. left. reflexivity.
  - apply (sh_ref d n s); [assumption|]. apply IHS; [exact E|exact Hx|]. intros k j' Hk. pose proof (A k j' Hk) as T. inversion T as [| | | | | | | | |a b c Hb Tb| | | |]; subst. congruence.
  - apply sh_members; [|destruct xs; [contradiction|discriminate]]. intros k j' Hk. pose proof (A k j' Hk) as T. inversion T as [| | | | | | | | | |a b c Hb Tb| |a b Hb|]; subst; [exists b; split; assumption|]. apply Hb. left. reflexivity.
  - apply sh_any.
  - apply sh_members; [|destruct xs; [contradiction|discriminate]]. intros k j' Hk. pose proof (A k j' Hk) as T. inversion T as [| | | | | | | | | |a b c Hb Tb| |a b Hb|]; subst; [exists b; split; assumption|]. apply Hb. left. reflexivity.
Qed.
Lemma items_shaped d s j0 : shaped d s (JArr [j0]) -> forall js, In j0 js -> (forall j, In j js -> shaped d s (JArr [j])) -> shaped d s (JArr js).
Proof.
  intros S. remember (JArr [j0]) as o eqn:E. induction S; try discriminate E; intros xs Hx A.
  - apply sh_list. intros j Hj. pose proof (A j Hj) as S. inversion S as [| | | | | | |a b Hl| | | | | |]; subst. apply Hl. left. reflexivity.
  - apply (sh_ref d n s); [assumption|]. apply IHS; [exact E|exact Hx|]. intros j' Hk. pose proof (A j' Hk) as T. inversion T as [| | | | | | | | |a b c Hb Tb| | | |]; subst. congruence.
  - apply sh_items; [|destruct xs; [contradiction|discriminate]]. intros j' Hk. pose proof (A j' Hk) as T. inversion T as [| | | | | | | | | |a b c Hb Tb| | |a b Hb]; subst; [exists b; split; assumption|]. apply Hb. left. reflexivity.
  - apply sh_any.
  - apply sh_items; [|destruct xs; [contradiction|discriminate]]. intros j' Hk. pose proof (A j' Hk) as T. inversion T as [| | | | | | | | | |a b c Hb Tb| | |a b Hb]; subst; [exists b; split; assumption|]. apply Hb. left. reflexivity.
Qed.

Section Sound.
  Variables (d : schemas) (R : list key).
  Hypothesis K : all_known d R = true.

  Lemma lift a j : (forall c, core c -> fits R c a = true -> shaped d c j) -> forall s, fits R s a = true -> shaped d s j.
  Proof.
    intros C. induction s as [l IH|s N] using one_induction; intros F.
    - cbn [fits] in F. apply existsb_exists in F as (s' & Hs & F). rewrite Forall_forall in IH. exact (sh_one d l s' j Hs (IH s' Hs F)).
    - destruct s as [| | | | | | | |n|l|]; try (apply C; [exact Logic.I|exact F]); [|destruct (N l); reflexivity].
      cbn [fits] in F. apply key_in_spec in F. unfold all_known in K. rewrite forallb_forall in K. pose proof (K _ F) as X. unfold known in X. cbn [fst snd] in X. apply existsb_exists in X as (c & Hc & X).
      exact (cores_shaped d j 8 (Ref n) c Hc (C c (cores_core d 8 (Ref n) c Hc) X)).
  Qed.
  (** [j] may be written for a value of this form, or of this type *)
  Definition formed (f : option ty) (j : json) : Prop := forall s, forallb (fits R s) (atoms f) = true -> shaped d s j.
  Definition written (t : ty) (j : json) : Prop := exists f, In f (forms t) /\ formed f j.

  Lemma forms_some t : exists f, In f (forms t).
  Proof. unfold forms. destruct (marshal_hook (base t)); eexists; left; reflexivity. Qed.
  Lemma null_written t : written t JNull.
  Proof. destruct (forms_some t) as (f & H). exists f. split; [exact H|]. intros s _. apply sh_null. Qed.
  Lemma empty_formed f : In AEmpty (atoms f) -> formed f (JObj []).
  Proof.
    intros H s F. rewrite forallb_forall in F. apply (lift AEmpty); [|exact (F _ H)]. intros c C X. destruct c; try contradiction C; try discriminate X; [apply sh_object; intros k j []|apply sh_any].
  Qed.
  Lemma text_formed t x : kind_of t = KStr -> formed (Some t) (JStr x).
  Proof.
    intros E s F. unfold atoms in F. rewrite E in F. cbn [forallb] in F. rewrite Bool.andb_true_r in F. apply (lift (AKind "s"%char)); [|exact F].
    intros c C X. destruct c; try contradiction C; try discriminate X; constructor.
  Qed.
  Lemma whole_formed t z : kind_of t = KInt -> formed (Some t) (JNum (format_int z)).
  Proof.
    intros E s F. unfold atoms in F. rewrite E in F. cbn [forallb] in F. rewrite Bool.andb_true_r in F. apply (lift (AKind "i"%char)); [|exact F].
    intros c C X. destruct c; try contradiction C; try discriminate X; constructor.
  Qed.
  Lemma number_formed t lit : kind_of t = KFlt -> json_number lit = true -> formed (Some t) (JNum lit).
  Proof.
    intros E N s F. unfold atoms in F. rewrite E in F. cbn [forallb] in F. rewrite Bool.andb_true_r in F. apply (lift (AKind "f"%char)); [|exact F].
    intros c C X. destruct c; try contradiction C; try discriminate X; constructor. exact N.
  Qed.
  Lemma truth_formed t b : kind_of t = KBool -> formed (Some t) (JBool b).
  Proof.
    intros E s F. unfold atoms in F. rewrite E in F. cbn [forallb] in F. rewrite Bool.andb_true_r in F. apply (lift (AKind "b"%char)); [|exact F].
    intros c C X. destruct c; try contradiction C; try discriminate X; constructor.
  Qed.
  Lemma list_formed t t' js : kind_of t = KSlice t' -> (forall j, In j js -> written t' j) -> formed (Some t) (JArr js).
  Proof.
    intros E W s F. unfold atoms in F. rewrite E in F. rewrite forallb_forall in F.
    destruct js as [|j0 js].
    - apply (lift ANil); [|apply F; left; reflexivity]. intros c C X. destruct c; try contradiction C; try discriminate X; [apply sh_list; intros j []|apply sh_any].
    - assert (A : forall j, In j (j0 :: js) -> shaped d s (JArr [j])).
      { intros j Hj. destruct (W j Hj) as (f & Hf & Fo). apply (lift (AElem f)); [|apply F; right; apply in_map; exact Hf].
        intros c C X. destruct c; try contradiction C; try discriminate X; [|apply sh_any]. apply sh_list. intros j' [<-|[]]. cbn [fits] in X. exact (Fo _ X). }
      apply (items_shaped d s j0); [apply A; left; reflexivity|left; reflexivity|exact A].
  Qed.
  Lemma assoc_first {A} (k : string) (ms : list (string * A)) : existsb (fun m => String.eqb k (fst m)) ms = true -> exists x, assoc k ms = Some x /\ In (k, x) ms.
  Proof.
    induction ms as [|[n x] ms IH]; cbn [existsb assoc fst]; [discriminate|]. destruct (String.eqb_spec k n) as [->|N].
    - intros _. exists x. split; [|left; reflexivity]. first [rewrite String.eqb_refl; reflexivity|reflexivity].
    - cbn [orb]. intros H. destruct (IH H) as (y & Ay & I). exists y. split; [|right; exact I]. destruct (String.eqb_spec n k) as [->|]; [contradiction|]. exact Ay.
  Qed.
  Lemma object_formed t fs ms : kind_of t = KStruct fs -> (forall k j, In (k, j) ms -> exists g om, In g fs /\ json_info g = Some (k, om) /\ written (f_ty g) j) -> formed (Some t) (JObj ms).
  Proof.
    intros E W. destruct ms as [|[k0 j0] ms].
    - apply empty_formed. unfold atoms. rewrite E. left. reflexivity.
    - intros s F. unfold atoms in F. rewrite E in F. rewrite forallb_forall in F.
      assert (A : forall k j, In (k, j) ((k0, j0) :: ms) -> shaped d s (JObj [(k, j)])).
      { intros k j Hj. destruct (W k j Hj) as (g & om & Hg & J & f & Hf & Fo). apply (lift (AField g)); [|apply F; right; apply in_map, filter_In; split; [exact Hg|rewrite J; reflexivity]].
        intros c C X. destruct c as [| | | | | | |l r| | |]; try contradiction C; try discriminate X; [|apply sh_any]. cbn [fits] in X. rewrite J in X. apply andb_prop in X as (X & Y).
        apply sh_object. intros k' j' [[= <- <-]|[]]. destruct (assoc_first k l X) as (s' & As & Is). exists s'. split; [exact As|]. rewrite forallb_forall in Y. specialize (Y _ Is). cbn [fst snd] in Y. rewrite String.eqb_refl in Y.
        rewrite forallb_forall in Y. exact (Fo _ (Y f Hf)). }
      apply (members_shaped d s k0 j0); [apply A; left; reflexivity|left; reflexivity|exact A].
  Qed.

  Definition good (v : val) : Prop := forall esc t o, wt t v -> jenc esc t v = Ok o -> written t (erase o).
  Lemma struct_members esc : forall vs fs ms, Forall good vs -> zip_all (fun f x => wt (f_ty f) x) vs fs -> enc_members esc fs vs (encs vs fs) = Ok ms ->
    forall k o, In (k, o) ms -> exists g om, In g fs /\ json_info g = Some (k, om) /\ written (f_ty g) (erase o).
  Proof.
    induction vs as [|v vs IH]; intros [|f fs] ms G W E k o Hk; cbn [zip_all] in W; try contradiction W.
    - injection E as <-. contradiction.
    - destruct W as (Wv & Ws). inversion G as [|? ? Gv Gs]; subst. cbn [encs enc_members] in E.
      assert (Next : forall ms', enc_members esc fs vs (encs vs fs) = Ok ms' -> In (k, o) ms' -> exists g om, In g (f :: fs) /\ json_info g = Some (k, om) /\ written (f_ty g) (erase o)).
      { intros ms' E' H'. destruct (IH fs ms' Gs Ws E' k o H') as (g & om & Hg & X). exists g, om. split; [right; exact Hg|exact X]. }
      destruct (json_info f) as [[n om]|] eqn:J; [|exact (Next ms E Hk)]. destruct (om && empty_value v)%bool; [exact (Next ms E Hk)|].
      apply bind_ok in E as (o' & Eo & E). apply bind_ok in E as (ms' & Es & E). injection E as <-. destruct Hk as [[= <- <-]|Hk]; [|exact (Next ms' Es Hk)].
      exists f, om. split; [left; reflexivity|]. split; [exact J|exact (Gv esc (f_ty f) o' Wv Eo)].
  Qed.
  Lemma struct_formed esc t fs vs o : kind_of t = KStruct fs -> Forall good vs -> zip_all (fun f x => wt (f_ty f) x) vs fs -> enc_struct esc fs vs (encs vs fs) = Ok o -> formed (Some t) (erase o).
  Proof.
    intros Kt G W E. unfold enc_struct in E. apply bind_ok in E as (ms & E & X). injection X as <-. cbn [erase]. apply (object_formed t fs _ Kt).
    intros k j Hk. apply in_map_iff in Hk as ((k', o) & [= <- <-] & Hk). exact (struct_members esc vs fs ms G W E k' o Hk).
  Qed.
  Lemma written_one t f j : forms t = [f] -> written t j -> formed f j.
  Proof. intros E (g & Hg & F). rewrite E in Hg. destruct Hg as [<-|[]]. exact F. Qed.
  Lemma ref_pointer n t : kind_of (TRef n) <> KPtr t.
  Proof.
    cbn [kind_of]. assert (A : forallb (fun m => match snd m with DAlias (TPtr _) => false | _ => true end) defs = true) by (vm_compute; reflexivity). rewrite forallb_forall in A.
    destruct (assoc n defs) as [[fs|a]|] eqn:E; try discriminate. specialize (A (n, DAlias a)). cbn [snd] in A. intros X. destruct a; try discriminate X. discriminate A. apply assoc_in. exact E.
  Qed.
  Lemma pointer_forms t t' : kind_of t = KPtr t' -> forms t = forms t'.
  Proof. destruct t; try discriminate; [intros [= <-]; reflexivity|intros E; destruct (ref_pointer _ _ E)]. Qed.
  Lemma plain_forms t : marshal_hook t = HNone -> (forall t', kind_of t <> KPtr t') -> forms t = [Some t].
  Proof. intros H N. unfold forms. assert (B : base t = t) by (destruct t; try reflexivity; destruct (N t); reflexivity). rewrite B, H. reflexivity. Qed.
  Lemma scanned_same r o : scanned r = Ok o -> r = Ok o.
  Proof. unfold scanned. intros E. apply bind_ok in E as (o' & E & X). destruct (too_deep (erase o')); [discriminate|]. injection X as <-. exact E. Qed.

  (** The types with methods *)
  Lemma parts_2 (A B : ty) vs f g : f_ty f = A -> f_ty g = B -> Forall good vs -> zip_all (fun f x => wt (f_ty f) x) vs [f; g] ->
    exists a b, vs = [a; b] /\ good a /\ good b /\ wt A a /\ wt B b.
  Proof.
    intros <- <- G W. destruct vs as [|a [|b [|]]]; cbn [zip_all] in W; try tauto. destruct W as (Wa & Wb & _). inversion G as [|? ? Ga G']; subst. inversion G' as [|? ? Gb _]; subst. exists a, b. repeat split; assumption.
  Qed.
  Lemma parts_3 (A B C : ty) vs f g h : f_ty f = A -> f_ty g = B -> f_ty h = C -> Forall good vs -> zip_all (fun f x => wt (f_ty f) x) vs [f; g; h] ->
    exists a b c, vs = [a; b; c] /\ good a /\ good b /\ good c /\ wt A a /\ wt B b /\ wt C c.
  Proof.
    intros <- <- <- G W. destruct vs as [|a [|b [|c [|]]]]; cbn [zip_all] in W; try tauto. destruct W as (Wa & Wb & Wc & _). inversion G as [|? ? Ga G']; subst. inversion G' as [|? ? Gb G'']; subst. inversion G'' as [|? ? Gc _]; subst.
    exists a, b, c. repeat split; assumption.
  Qed.
  Lemma by_form f t j : In f (forms t) -> formed f j -> written t j.
  Proof. intros H F. exists f. split; assumption. Qed.
  Lemma part_written v t f o : good v -> wt t v -> forms t = [f] -> jenc true t v = Ok o -> formed f (erase o).
  Proof. intros G W F E. exact (written_one t f _ F (G true t o W E)). Qed.
  Lemma empty_written t : In None (forms t) -> written t (JObj []).
  Proof. intros H. apply (by_form None t _ H). apply empty_formed. left. reflexivity. Qed.

  Lemma env_written vs o : Forall good vs -> zip_all (fun f x => wt (f_ty f) x) vs fields_EnvironmentVariableChoice -> marshal HEnvironmentVariable fields_EnvironmentVariableChoice vs (encs vs fields_EnvironmentVariableChoice) = Ok o -> written (TRef "EnvironmentVariableChoice") (erase o).
  Proof.
    intros G W E. destruct (parts_2 _ _ vs _ _ eq_refl eq_refl G W) as (a & b & -> & Ga & Gb & Wa & Wb). cbn [marshal encs fields_EnvironmentVariableChoice] in E.
    destruct (match a with VPtr (Some p) => negb (zero_value p) | _ => false end); [|destruct (nonempty b)].
    - apply (by_form (Some (TRef "Property"))); [left; reflexivity|]. exact (part_written a _ _ o Ga Wa eq_refl E).
    - apply (by_form (Some TStr)); [right; left; reflexivity|]. exact (part_written b _ _ o Gb Wb eq_refl E).
    - injection E as <-. apply empty_written. right. right. left. reflexivity.
  Qed.
  Lemma dataset_written vs o : Forall good vs -> zip_all (fun f x => wt (f_ty f) x) vs fields_MLDatasetChoice -> marshal HDataset fields_MLDatasetChoice vs (encs vs fields_MLDatasetChoice) = Ok o -> written (TRef "MLDatasetChoice") (erase o).
  Proof.
    intros G W E. destruct (parts_2 _ _ vs _ _ eq_refl eq_refl G W) as (a & b & -> & Ga & Gb & Wa & Wb). cbn [marshal encs fields_MLDatasetChoice] in E.
    destruct (nonempty a); [|destruct (nonnil b)].
    - apply (by_form (Some (TRef "mlDatasetChoiceRefJSON"))); [left; reflexivity|]. apply (struct_formed true (TRef "mlDatasetChoiceRefJSON") fields_mlDatasetChoiceRefJSON [a] o eq_refl); [constructor; [exact Ga|constructor]|split; [exact Wa|exact Logic.I]|exact E].
    - apply (by_form (Some (TRef "ComponentData"))); [right; left; reflexivity|]. exact (part_written b _ _ o Gb Wb eq_refl E).
    - injection E as <-. apply empty_written. right. right. left. reflexivity.
  Qed.
  Lemma tools_written vs o : Forall good vs -> zip_all (fun f x => wt (f_ty f) x) vs fields_ToolsChoice -> marshal HTools fields_ToolsChoice vs (encs vs fields_ToolsChoice) = Ok o -> written (TRef "ToolsChoice") (erase o).
  Proof.
    intros G W E. destruct (parts_3 _ _ _ vs _ _ _ eq_refl eq_refl eq_refl G W) as (a & b & c & -> & Ga & Gb & Gc & Wa & Wb & Wc). cbn [marshal encs fields_ToolsChoice] in E.
    destruct (nonnil a && (nonnil b || nonnil c))%bool; [discriminate|]. destruct (nonnil a); [|destruct (nonnil b || nonnil c)%bool; [|discriminate]].
    - apply (by_form (Some (TSlice (TRef "Tool")))); [left; reflexivity|]. exact (part_written a _ _ o Ga Wa eq_refl E).
    - apply (by_form (Some (TRef "toolsChoiceJSON"))); [right; left; reflexivity|]. apply (struct_formed true (TRef "toolsChoiceJSON") fields_toolsChoiceJSON [b; c] o eq_refl); [constructor; [exact Gb|constructor; [exact Gc|constructor]]|split; [exact Wb|split; [exact Wc|exact Logic.I]]|exact E].
  Qed.
  Lemma identity_written vs o : Forall good vs -> zip_all (fun f x => wt (f_ty f) x) vs fields_EvidenceIdentityChoice -> marshal HIdentity fields_EvidenceIdentityChoice vs (encs vs fields_EvidenceIdentityChoice) = Ok o -> written (TRef "EvidenceIdentityChoice") (erase o).
  Proof.
    intros G W E. destruct (parts_2 _ _ vs _ _ eq_refl eq_refl G W) as (a & b & -> & Ga & Gb & Wa & Wb). cbn [marshal encs fields_EvidenceIdentityChoice] in E.
    destruct (nonnil a && nonnil b)%bool; [discriminate|]. destruct (nonnil a); [|destruct (nonnil b)].
    - apply (by_form (Some (TRef "EvidenceIdentity"))); [left; reflexivity|]. exact (part_written a _ _ o Ga Wa eq_refl E).
    - apply (by_form (Some (TSlice (TRef "EvidenceIdentity")))); [right; left; reflexivity|]. exact (part_written b _ _ o Gb Wb eq_refl E).
    - injection E as <-. apply null_written.
  Qed.
  Lemma license_written vs o : Forall good vs -> zip_all (fun f x => wt (f_ty f) x) vs fields_License -> marshal HLicense fields_License vs (encs vs fields_License) = Ok o -> written (TRef "License") (erase o).
  Proof.
    intros G W E. apply (by_form (Some (TRef "License"))); [left; reflexivity|]. apply (struct_formed true (TRef "License") fields_License vs o eq_refl G W).
    destruct vs as [|v0 [|v1 [|v2 vs]]]; cbn [marshal] in E; try discriminate E. destruct (nonempty v1 && nonempty v2)%bool; [discriminate|]. destruct (negb (nonempty v1 || nonempty v2)); [discriminate|]. exact E.
  Qed.
  Lemma state_written vs o : Forall good vs -> zip_all (fun f x => wt (f_ty f) x) vs fields_CertificateState -> marshal HCertState fields_CertificateState vs (encs vs fields_CertificateState) = Ok o -> written (TRef "CertificateState") (erase o).
  Proof.
    intros G W E. destruct (parts_2 _ _ vs _ _ eq_refl eq_refl G W) as (a & b & -> & Ga & Gb & Wa & Wb). cbn [marshal encs fields_CertificateState] in E.
    destruct (nonnil a && nonnil b)%bool; [discriminate|]. destruct (nonnil a); [|destruct (nonnil b)].
    - apply (by_form (Some (TRef "PredefinedCertificateState"))); [left; reflexivity|]. exact (part_written a _ _ o Ga Wa eq_refl E).
    - apply (by_form (Some (TRef "CustomCertificateState"))); [right; left; reflexivity|]. exact (part_written b _ _ o Gb Wb eq_refl E).
    - injection E as <-. apply empty_written. right. right. left. reflexivity.
  Qed.
  Lemma extension_written vs o : Forall good vs -> zip_all (fun f x => wt (f_ty f) x) vs fields_CertificateExtension -> marshal HCertExtension fields_CertificateExtension vs (encs vs fields_CertificateExtension) = Ok o -> written (TRef "CertificateExtension") (erase o).
  Proof.
    intros G W E. destruct (parts_2 _ _ vs _ _ eq_refl eq_refl G W) as (a & b & -> & Ga & Gb & Wa & Wb). cbn [marshal encs fields_CertificateExtension] in E.
    destruct (nonnil a && nonnil b)%bool; [discriminate|]. destruct (nonnil a); [|destruct (nonnil b)].
    - apply (by_form (Some (TRef "CommonCertificateExtension"))); [left; reflexivity|]. exact (part_written a _ _ o Ga Wa eq_refl E).
    - apply (by_form (Some (TRef "CustomCertificateExtension"))); [right; left; reflexivity|]. exact (part_written b _ _ o Gb Wb eq_refl E).
    - injection E as <-. apply empty_written. right. right. left. reflexivity.
  Qed.
  Lemma patent_written vs o : Forall good vs -> zip_all (fun f x => wt (f_ty f) x) vs fields_PatentChoice -> marshal HPatent fields_PatentChoice vs (encs vs fields_PatentChoice) = Ok o -> written (TRef "PatentChoice") (erase o).
  Proof.
    intros G W E. destruct (parts_2 _ _ vs _ _ eq_refl eq_refl G W) as (a & b & -> & Ga & Gb & Wa & Wb). cbn [marshal encs fields_PatentChoice] in E.
    destruct (nonnil a); [|destruct (nonnil b)].
    - apply (by_form (Some (TRef "Patent"))); [left; reflexivity|]. exact (part_written a _ _ o Ga Wa eq_refl E).
    - apply (by_form (Some (TRef "PatentFamily"))); [right; left; reflexivity|]. exact (part_written b _ _ o Gb Wb eq_refl E).
    - injection E as <-. apply empty_written. right. right. left. reflexivity.
  Qed.
  Lemma asserter_written vs o : Forall good vs -> zip_all (fun f x => wt (f_ty f) x) vs fields_AsserterChoice -> marshal HAsserter fields_AsserterChoice vs (encs vs fields_AsserterChoice) = Ok o -> written (TRef "AsserterChoice") (erase o).
  Proof.
    intros G W E. destruct (parts_3 _ _ _ vs _ _ _ eq_refl eq_refl eq_refl G W) as (a & b & c & -> & Ga & Gb & Gc & Wa & Wb & Wc). cbn [marshal encs fields_AsserterChoice] in E.
    apply (by_form (Some (TRef "AsserterChoice"))); [left; reflexivity|]. destruct (nonnil a); [|destruct (nonnil b); [|destruct (nonnil c)]].
    - apply bind_ok in E as (x & E & X). injection X as <-. apply (object_formed (TRef "AsserterChoice") fields_AsserterChoice _ eq_refl). intros k j [[= <- <-]|[]]. exists (nth 0 fields_AsserterChoice (mkField "" TStr "" false)), true. split; [left; reflexivity|]. split; [reflexivity|]. exact (Ga true _ x Wa E).
    - apply bind_ok in E as (x & E & X). injection X as <-. apply (object_formed (TRef "AsserterChoice") fields_AsserterChoice _ eq_refl). intros k j [[= <- <-]|[]]. exists (nth 1 fields_AsserterChoice (mkField "" TStr "" false)), true. split; [right; left; reflexivity|]. split; [reflexivity|]. exact (Gb true _ x Wb E).
    - apply bind_ok in E as (x & E & X). injection X as <-. apply (object_formed (TRef "AsserterChoice") fields_AsserterChoice _ eq_refl). intros k j [[= <- <-]|[]]. exists (nth 2 fields_AsserterChoice (mkField "" TStr "" false)), true. split; [right; right; left; reflexivity|]. split; [reflexivity|]. exact (Gc true _ x Wc E).
    - injection E as <-. apply empty_formed. left. reflexivity.
  Qed.
  Lemma ike_written t f fs vs o : kind_of t = KStruct (f :: fs) -> forms t = [Some (TRef "BOMReference"); Some t] -> f_ty f = TRef "BOMReference" -> marshal_hook t = HIKEv2 -> Forall good vs -> zip_all (fun f x => wt (f_ty f) x) vs (f :: fs) -> marshal HIKEv2 (f :: fs) vs (encs vs (f :: fs)) = Ok o -> written t (erase o).
  Proof.
    intros Kt Ft T _ G W E. destruct vs as [|v vs]; [contradiction W|]. cbn [marshal encs] in E. destruct (nonempty v).
    - apply (by_form (Some (TRef "BOMReference"))); [rewrite Ft; left; reflexivity|]. destruct W as (Wv & _). inversion G as [|? ? Gv _]; subst. rewrite T in E, Wv. exact (part_written v (TRef "BOMReference") _ o Gv Wv eq_refl E).
    - apply (by_form (Some t)); [rewrite Ft; right; left; reflexivity|]. exact (struct_formed true t (f :: fs) (v :: vs) o Kt G W E).
  Qed.

  Lemma all_good v : good v.
  Proof.
    induction v as [x|z|b|f| |v IH| |l IH|vs IH] using val_induction; intros esc t o W E; cbn [wt] in W.
    - injection E as <-. destruct (hook_cases t) as [H|[->|(h & fs & H)]]; [|discriminate W|apply hooked_kind in H; rewrite H in W; discriminate].
      exists (Some t). split; [rewrite (plain_forms t H); [left; reflexivity|rewrite W; discriminate]|]. apply text_formed, W.
    - destruct (hook_cases t) as [H|[->|(h & fs & H)]]; [| |apply hooked_kind in H; rewrite H in W; discriminate].
      + cbn [jenc] in E. rewrite H in E. injection E as <-. exists (Some t). split; [rewrite (plain_forms t H); [left; reflexivity|rewrite W; discriminate]|]. apply whole_formed, W.
      + injection E as <-. exists (Some TStr). split; [left; reflexivity|]. apply text_formed. reflexivity.
    - injection E as <-. destruct (hook_cases t) as [H|[->|(h & fs & H)]]; [|discriminate W|apply hooked_kind in H; rewrite H in W; discriminate].
      exists (Some t). split; [rewrite (plain_forms t H); [left; reflexivity|rewrite W; discriminate]|]. apply truth_formed, W.
    - destruct f; try discriminate E. injection E as <-. destruct (hook_cases t) as [H|[->|(h & fs & H)]]; [|discriminate W|apply hooked_kind in H; rewrite H in W; discriminate].
      exists (Some t). split; [rewrite (plain_forms t H); [left; reflexivity|rewrite W; discriminate]|]. apply number_formed; [exact W|apply float_number].
    - injection E as <-. apply null_written.
    - destruct (kind_of t) as [| | | |t'|t'|fs|] eqn:Kt; try contradiction W. cbn [jenc] in E. unfold elem_ty in E. rewrite Kt in E. destruct (IH esc t' o W E) as (f & Hf & F). exists f. rewrite (pointer_forms t t' Kt). split; assumption.
    - injection E as <-. apply null_written.
    - destruct (kind_of t) as [| | | |t'|t'|fs|] eqn:Kt; try contradiction W. rewrite jenc_slice in E. unfold elem_ty in E. rewrite Kt in E. apply bind_ok in E as (os & E & X). injection X as <-. cbn [erase].
      destruct (hook_cases t) as [H|[->|(h & fs & H)]]; [|discriminate Kt|apply hooked_kind in H; rewrite H in Kt; discriminate].
      exists (Some t). split; [rewrite (plain_forms t H); [left; reflexivity|rewrite Kt; discriminate]|]. apply (list_formed t t' _ Kt).
      assert (A : forall o, In o os -> written t' (erase o)).
      { clear -IH W E. revert os E W. induction IH as [|x l Gx _ IH]; intros os E W; cbn [enc_elements] in E.
        - injection E as <-. intros o [].
        - apply bind_ok in E as (o & Eo & E). apply bind_ok in E as (os' & Es & E). injection E as <-. destruct W as (Wx & Wl). intros y [<-|Hy]; [exact (Gx esc t' o Wx Eo)|exact (IH os' Es Wl y Hy)]. }
      intros j Hj. apply in_map_iff in Hj as (o & <- & Ho). exact (A o Ho).
    - destruct (kind_of t) as [| | | |t'|t'|fs|] eqn:Kt; try contradiction W. rewrite jenc_struct in E. unfold fields_of in E. rewrite Kt in E.
      destruct (hook_cases t) as [H|[->|(h & fs' & H)]]; [|discriminate Kt|].
      + rewrite H in E. exists (Some t). split; [rewrite (plain_forms t H); [left; reflexivity|rewrite Kt; discriminate]|]. exact (struct_formed esc t fs vs o Kt IH W E).
      + pose proof (hooked_kind t h fs' H) as K'. rewrite Kt in K'. injection K' as <-. destruct H; cbn [marshal_hook assoc marshal_hooks String.eqb Ascii.eqb Bool.eqb] in E; apply scanned_same in E.
        * exact (env_written vs o IH W E).
        * exact (dataset_written vs o IH W E).
        * exact (tools_written vs o IH W E).
        * exact (identity_written vs o IH W E).
        * exact (license_written vs o IH W E).
        * exact (state_written vs o IH W E).
        * exact (extension_written vs o IH W E).
        * exact (asserter_written vs o IH W E).
        * exact (ike_written _ _ _ vs o Kt eq_refl eq_refl eq_refl IH W E).
        * exact (ike_written _ _ _ vs o Kt eq_refl eq_refl eq_refl IH W E).
        * exact (ike_written _ _ _ vs o Kt eq_refl eq_refl eq_refl IH W E).
        * exact (ike_written _ _ _ vs o Kt eq_refl eq_refl eq_refl IH W E).
        * exact (ike_written _ _ _ vs o Kt eq_refl eq_refl eq_refl IH W E).
        * exact (patent_written vs o IH W E).
  Qed.
End Sound.

Theorem covers_shapes d b esc o : covers d = true -> json_encode esc b = Ok o -> shaped d (Ref "") (erase o).
Proof.
  unfold covers. generalize (known_keys d). intros R C E. destruct (all_known d R) eqn:K; [|discriminate]. apply encode_writes in E as (E & _). rewrite bom_to_json_eq in E.
  pose proof (all_good d R K (reify_BOM b) esc (TRef "BOM") o (typed_BOM b) E) as W. apply (written_one d R (TRef "BOM") (Some (TRef "BOM")) _ eq_refl) in W. apply W. clear -C. unfold top in C. revert C. generalize (atoms (Some (TRef "BOM"))).
  induction l as [|a l IH]; [reflexivity|]. cbn [map forallb]. intros C. apply andb_prop in C as (A & C). rewrite (IH C). cbn [fits]. rewrite A. reflexivity.
Qed.

(** ** A document that is not shaped *)
Fixpoint may_be (d : schemas) (fuel : nat) (s : schema) (j : json) : bool :=
  match fuel with
  | O => true
  | S fuel' =>
      match s, j with
      | _, JNull | Anything, _ => true
      | (Text | Filled | Words _), JStr _ => true
      | (Whole | Number), JNum _ => true
      | Truth, JBool _ => true
      | ListOf s', JArr l => forallb (may_be d fuel' s') l
      | Object ms _, JObj l => forallb (fun m => match assoc (fst m) ms with Some s' => may_be d fuel' s' (snd m) | None => false end) l
      | Ref n, _ => match assoc n d with Some s' => may_be d fuel' s' j | None => false end
      | OneOf l, _ => (existsb (fun s' => may_be d fuel' s' j) l || match j with
                                                                    | JObj ms => forallb (fun m => existsb (fun s' => may_be d fuel' s' (JObj [m])) l) ms
                                                                    | JArr js => forallb (fun x => existsb (fun s' => may_be d fuel' s' (JArr [x])) l) js
                                                                    | _ => false
                                                                    end)%bool
      | _, _ => false
      end
  end.
Lemma shaped_may_be d : forall fuel s j, shaped d s j -> may_be d fuel s j = true.
Proof.
  induction fuel as [|fuel IH]; intros s j S; [reflexivity|]. inversion S as [| | | | | | |s' l H|ms r l H|n s' j' A H|l s' j' Hs H| |l ms H _|l js H _]; subst; try reflexivity.
  - destruct s; reflexivity.
  - cbn [may_be]. apply forallb_forall. intros x Hx. apply IH, H, Hx.
  - cbn [may_be]. apply forallb_forall. intros (k, x) Hx. destruct (H k x Hx) as (s' & A & Sx). cbn [fst snd]. rewrite A. apply IH, Sx.
  - cbn [may_be]. rewrite A, (IH _ _ H). destruct j; reflexivity.
  - cbn [may_be]. assert (E : existsb (fun s' => may_be d fuel s' j) l = true) by (apply existsb_exists; exists s'; split; [exact Hs|apply IH, H]). rewrite E. destruct j; reflexivity.
  - destruct j; reflexivity.
  - cbn [may_be]. apply Bool.orb_true_iff. right. apply forallb_forall. intros (k, x) Hx. destruct (H k x Hx) as (s' & Hs & Sx). apply existsb_exists. exists s'. split; [exact Hs|apply IH, Sx].
  - cbn [may_be]. apply Bool.orb_true_iff. right. apply forallb_forall. intros x Hx. destruct (H x Hx) as (s' & Hs & Sx). apply existsb_exists. exists s'. split; [exact Hs|apply IH, Sx].
Qed.
Lemma not_shaped d fuel s j : may_be d fuel s j = false -> ~ shaped d s j.
Proof. intros M S. rewrite (shaped_may_be d fuel s j S) in M. discriminate. Qed.

