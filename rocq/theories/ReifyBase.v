(** Combinators for the generated proofs in ReifyFacts.v. *)
From Verif Require Import Base Types Univ TypeTable Wt.
Local Open Scope string_scope.

(** ** From records to values and back *)
Definition inv {A} (f : A -> val) (g : val -> A) : Prop := forall x, g (f x) = x.

Lemma inv_str : inv VStr str_of. Proof. intros x; reflexivity. Qed.
Lemma inv_int : inv VInt int_of. Proof. intros x; reflexivity. Qed.
Lemma inv_bool : inv VBool bool_of. Proof. intros x; reflexivity. Qed.
Lemma inv_flt : inv VFlt flt_of. Proof. intros x; reflexivity. Qed.
Lemma inv_name : inv vname name_of. Proof. intros [a b]; reflexivity. Qed.
Lemma inv_ptr {A} (f : A -> val) g : inv f g -> inv (vptr f) (ptr_of g).
Proof. intros H [x|]; cbn; [rewrite H|]; reflexivity. Qed.
Lemma inv_slice {A} (f : A -> val) g : inv f g -> inv (vslice f) (slice_of g).
Proof. intros H [l|]; cbn; [|reflexivity]. f_equal. rewrite map_map. rewrite <- (map_id l) at 2. apply map_ext, H. Qed.
Lemma inv_app {A} (f : A -> val) g x : inv f g -> g (f x) = x.
Proof. intros H; apply H. Qed.

Lemma inv_ptr_slice_in {A} (f : A -> val) g p :
  (forall x, In x (match p with Some (Some l) => l | _ => [] end) -> g (f x) = x) ->
  ptr_of (slice_of g) (vptr (vslice f) p) = p.
Proof.
  intros H. destruct p as [[l|]|]; cbn; try reflexivity. do 2 f_equal. rewrite map_map.
  rewrite <- (map_id l) at 2. apply map_ext_in, H.
Qed.

(** ** Well-typedness *)
Definition typed {A} (t : ty) (f : A -> val) : Prop := forall x, wt t (f x).

Lemma wt_kind t t' v : kind_of t = kind_of t' -> wt t v -> wt t' v.
Proof. intros E. destruct v; cbn; rewrite E; trivial. Qed.

Lemma typed_str : typed TStr VStr. Proof. intros x; reflexivity. Qed.
Lemma typed_ref : typed (TRef "BOMReference") VStr. Proof. intros x; reflexivity. Qed.
Lemma typed_int : typed TInt VInt. Proof. intros x; reflexivity. Qed.
Lemma typed_version : typed (TRef "SpecVersion") VInt. Proof. intros x; reflexivity. Qed.
Lemma typed_bool : typed TBool VBool. Proof. intros x; reflexivity. Qed.
Lemma typed_f32 : typed TF32 VFlt. Proof. intros x; reflexivity. Qed.
Lemma typed_f64 : typed TF64 VFlt. Proof. intros x; reflexivity. Qed.
Lemma typed_name : typed (TRef "xml.Name") vname. Proof. intros x; cbn; auto. Qed.
Lemma typed_ptr {A} t (f : A -> val) : typed t f -> typed (TPtr t) (vptr f).
Proof. intros H [x|]; cbn; [apply H|exact I]. Qed.
Lemma list_all_forall {A} (P : A -> Prop) l : list_all P l <-> Forall P l.
Proof. induction l; cbn; [split; auto|]. rewrite IHl. split; [intros []; auto|intros H; inversion H; auto]. Qed.
Lemma list_all_map {A B} (P : B -> Prop) (f : A -> B) l : (forall x, In x l -> P (f x)) -> list_all P (map f l).
Proof. intros H. apply list_all_forall, Forall_map, Forall_forall, H. Qed.
Lemma typed_slice {A} t (f : A -> val) : typed t f -> typed (TSlice t) (vslice f).
Proof. intros H [l|]; cbn; [apply list_all_map; intros; apply H|exact I]. Qed.
Lemma typed_slice_in {A} t (f : A -> val) p :
  (forall x, In x (match p with Some (Some l) => l | _ => [] end) -> wt t (f x)) -> wt (TPtr (TSlice t)) (vptr (vslice f) p).
Proof. intros H. destruct p as [[l|]|]; cbn; auto. apply list_all_map, H. Qed.
Lemma typed_licenses {A} (f : A -> val) : typed (TRef "LicenseChoice") f -> typed (TRef "Licenses") (vslice f).
Proof. intros H x. apply (wt_kind (TSlice (TRef "LicenseChoice"))); [reflexivity|]. apply typed_slice, H. Qed.
Lemma typed_envs {A} (f : A -> val) : typed (TRef "EnvironmentVariableChoice") f -> typed (TRef "EnvironmentVariables") (vslice f).
Proof. intros H x. apply (wt_kind (TSlice (TRef "EnvironmentVariableChoice"))); [reflexivity|]. apply typed_slice, H. Qed.

(** ** From values to records and back *)
Definition vni {A} (t : ty) (f : A -> val) (g : val -> A) : Prop := forall v, wt t v -> f (g v) = v.

Lemma vni_kind {A} t t' (f : A -> val) g : kind_of t' = kind_of t -> vni t f g -> vni t' f g.
Proof. intros E H v W. apply H. eapply wt_kind; eassumption. Qed.
Ltac vni_scalar := intros v W; destruct v; cbn [wt] in W; vm_compute in W; try discriminate; try contradiction; reflexivity.
Lemma vni_str : vni TStr VStr str_of. Proof. vni_scalar. Qed.
Lemma vni_ref : vni (TRef "BOMReference") VStr str_of. Proof. apply (vni_kind TStr); [reflexivity|apply vni_str]. Qed.
Lemma vni_int : vni TInt VInt int_of. Proof. vni_scalar. Qed.
Lemma vni_version : vni (TRef "SpecVersion") VInt int_of. Proof. apply (vni_kind TInt); [reflexivity|apply vni_int]. Qed.
Lemma vni_bool : vni TBool VBool bool_of. Proof. vni_scalar. Qed.
Lemma vni_f32 : vni TF32 VFlt flt_of. Proof. vni_scalar. Qed.
Lemma vni_f64 : vni TF64 VFlt flt_of. Proof. vni_scalar. Qed.
Lemma vni_ptr {A} t (f : A -> val) g : vni t f g -> vni (TPtr t) (vptr f) (ptr_of g).
Proof.
  intros H v W. destruct v as [| | | |p| |]; cbn in W; try discriminate; try contradiction.
  destruct p as [x|]; [|reflexivity]. unfold ptr_of, vptr. cbn [option_map]. rewrite (H x W). reflexivity.
Qed.
Lemma vni_slice {A} t (f : A -> val) g : vni t f g -> vni (TSlice t) (vslice f) (slice_of g).
Proof.
  intros H v W. destruct v as [| | | | |s|]; cbn in W; try discriminate; try contradiction.
  destruct s as [l|]; [|reflexivity]. unfold slice_of, vslice. cbn [option_map]. do 2 f_equal. rewrite list_all_forall in W. rewrite map_map.
  rewrite <- (map_id l) at 2. apply map_ext_in. intros x Hx. apply H. rewrite Forall_forall in W. apply W, Hx.
Qed.
Lemma vni_licenses {A} (f : A -> val) g : vni (TRef "LicenseChoice") f g -> vni (TRef "Licenses") (vslice f) (slice_of g).
Proof. intros H. apply (vni_kind (TSlice (TRef "LicenseChoice"))); [reflexivity|]. apply vni_slice, H. Qed.
Lemma vni_envs {A} (f : A -> val) g : vni (TRef "EnvironmentVariableChoice") f g -> vni (TRef "EnvironmentVariables") (vslice f) (slice_of g).
Proof. intros H. apply (vni_kind (TSlice (TRef "EnvironmentVariableChoice"))); [reflexivity|]. apply vni_slice, H. Qed.

Lemma vni_name : vni (TRef "xml.Name") vname name_of.
Proof.
  intros v W. destruct v as [| | | | | |vs]; try (vm_compute in W; discriminate || contradiction).
  change (zip_all (fun f x => wt (f_ty f) x) vs fields_xmlName) in W. unfold fields_xmlName in W.
  destruct vs as [|a [|b [|c vs]]]; cbn [zip_all f_ty] in W; try tauto. destruct W as (Wa & Wb & _).
  cbn. unfold vname. cbn. rewrite (vni_str a Wa), (vni_str b Wb). reflexivity.
Qed.

Create HintDb reify discriminated.
#[export] Hint Resolve inv_str inv_int inv_bool inv_flt inv_name inv_ptr inv_slice : reify.
#[export] Hint Resolve typed_str typed_ref typed_int typed_version typed_bool typed_f32 typed_f64 typed_name typed_ptr typed_slice typed_licenses typed_envs : reify.
#[export] Hint Resolve vni_str vni_ref vni_int vni_version vni_bool vni_f32 vni_f64 vni_ptr vni_slice vni_licenses vni_envs vni_name : reify.

(** Rewrite every field back. *)
Ltac rr :=
  repeat match goal with
         | |- context [ptr_of ?g (vptr ?f ?x)] => rewrite (inv_app (vptr f) (ptr_of g) x ltac:(auto 8 with reify))
         | |- context [?g (?f ?x)] =>
             match type of (g (f x)) with
             | ?T => match type of f with _ -> val => rewrite (inv_app f g x ltac:(auto 8 with reify)) end
             end
         end.

(** Split a field-wise statement. *)
Ltac fields_typed :=
  repeat match goal with
         | |- _ /\ _ => split
         | |- True => exact I
         end.

(** [VStruct [f (g a); ...] = VStruct [a; ...]] *)
Ltac fields_back :=
  apply f_equal;
  repeat match goal with
         | |- @nil _ = _ => reflexivity
         | |- cons _ _ = cons _ _ => apply f_equal2
         end.
