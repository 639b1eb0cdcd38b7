(** What an XML round trip makes of the dependencies. *)
From Verif Require Import Base Types Univ TypeTable Wt ReifyBase Reify ReifyFacts Consts Version ConvertSpec JsonModel XmlModel XmlBack XmlTable XmlSpec XmlProofs XmlRound XmlNeat XmlTop.
Local Open Scope string_scope.

(** An empty list becomes absent. *)
Definition present {A} (l : list A) : ptr (slice A) := match l with [] => None | _ => Some (Some l) end.
(** The characters that XML does not allow are replaced; empty lists become absent. *)
Definition dependency_back (d : Dependency) : Dependency :=
  mkDependency (xml_clean (Dependency_Ref d)) (present (map xml_clean (members (Dependency_Dependencies d))))
    (present (map xml_clean (members (Dependency_Provides d)))).

Definition deps_field : list field := filter (fun f => String.eqb (f_name f) "Dependencies") fields_BOM.
Definition deps_back (d : ptr (slice Dependency)) : ptr (slice Dependency) :=
  ptr_of (slice_of reflect_Dependency) (hd (VPtr None) (back_fields deps_field [back_of (vptr (vslice reify_Dependency) d)])).
Lemma back_deps_field b : BOM_Dependencies (xml_back b) = deps_back (BOM_Dependencies b).
Proof.
  unfold xml_back. cbv zeta. rewrite (bom_shape b). unfold bom_values. destruct b. reflexivity.
Qed.
Lemma strings_somes l omit : omit = false -> somes (fun n => checked_back n TStr omit) (map back_of (map VStr l)) = map VStr (map xml_clean l).
Proof. intros ->. induction l as [|s l IH]; [reflexivity|]. cbn [map somes]. change (checked_back (back_of (VStr s)) TStr false) with (Some (VStr (xml_clean s))). cbv iota. f_equal. exact IH. Qed.
Lemma strings_back (l : ptr (slice string)) : ptr_of (slice_of str_of) (bptr (back_of (vptr (vslice VStr) l)) (TSlice TStr)) = present (map xml_clean (members l)).
Proof.
  destruct l as [[l|]|]; try reflexivity. cbn [members].
  change (ptr_of (slice_of str_of) (default (TPtr (TSlice TStr)) (option_map some_ptr
    (match somes (fun n => checked_back n TStr false) (map back_of (map VStr l)) with [] => None | l => Some (VSlice (Some l)) end))) = present (map xml_clean l)).
  rewrite strings_somes by reflexivity. destruct (map xml_clean l) as [|s l']; [reflexivity|]. unfold present.
  change (Some (Some (s :: map str_of (map VStr l'))) = Some (Some (s :: l'))). rewrite map_map, map_id. reflexivity.
Qed.
Lemma dependency_back_of d omit : exists v, bback (back_of (reify_Dependency d)) (TRef "Dependency") omit = Some v /\ reflect_Dependency v = dependency_back d.
Proof.
  eexists. split; [reflexivity|]. cbn [reify_Dependency map]. unfold reflect_Dependency, dependency_back. rewrite !strings_back. reflexivity.
Qed.
Lemma deps_somes l omit : map reflect_Dependency (somes (fun n => checked_back n (TRef "Dependency") omit) (map back_of (map reify_Dependency l))) = map dependency_back l.
Proof.
  induction l as [|d l IH]; [reflexivity|]. cbn [map somes]. destruct (dependency_back_of d omit) as (v & E & R).
  assert (C : checked_back (back_of (reify_Dependency d)) (TRef "Dependency") omit = Some v) by (unfold checked_back; rewrite E; destruct omit; reflexivity).
  rewrite C. cbn [map]. rewrite R, IH. reflexivity.
Qed.
Lemma deps_back_is d : deps_back d = present (map dependency_back (members d)).
Proof.
  destruct d as [[l|]|]; try reflexivity. cbn [members]. unfold deps_back, vptr, vslice. cbn [option_map]. rewrite <- (deps_somes l true).
  set (ns := map back_of (map reify_Dependency l)).
  change (ptr_of (slice_of reflect_Dependency) (default (TPtr (TSlice (TRef "Dependency"))) (option_map some_ptr (match somes (fun n => checked_back n (TRef "Dependency") true) ns with [] => None | l => Some (VSlice (Some l)) end)))
    = present (map reflect_Dependency (somes (fun n => checked_back n (TRef "Dependency") true) ns))).
  destruct (somes _ ns); reflexivity.
Qed.
Lemma dependencies_back b : BOM_Dependencies (xml_back b) = present (map dependency_back (members (BOM_Dependencies b))).
Proof. rewrite back_deps_field. apply deps_back_is. Qed.
