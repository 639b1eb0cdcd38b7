(** C01 and C32 on memory: calls of EncodeVersion running in any interleaving on memory the
    caller may have linked up in any way. [fuel] bounds the depth of the recursion of
    gob and of convert.go; every large enough bound gives the same. *)
From Coq Require Import Lia.
From Verif Require Import Base Types Univ TypeTable Reify Consts Version ConvertModel GobModel GobProofs ExampleBom HeapModel HeapSpec HeapLogic HeapRun.
Local Open Scope string_scope.
Local Open Scope list_scope.

(** At every moment (after every schedule) every cell of the caller is what it was. *)
Theorem C01_callers_memory : forall h0 calls boms, callers_only h0 -> Forall2 (fun c bom => bom_at h0 (snd c) bom) calls boms ->
  exists N, forall fuel, N <= fuel -> forall schedule a, fst a = 0 ->
    snd (run_pool schedule (start fuel calls) h0) a = h0 a.
Proof.
  intros h0 calls boms H1 H2. destruct (start_on_course h0 calls boms H1 H2) as [N HN]. exists N. intros fuel Hf schedule a Ha.
  destruct (HN fuel Hf) as [B HB]. apply (run_pool_on_course h0 _ schedule B _ _ HB). auto.
Qed.

(** Reading the caller's pointer gives the same BOM as before. *)
Theorem C01_same_bom : forall h0 calls boms, callers_only h0 -> Forall2 (fun c bom => bom_at h0 (snd c) bom) calls boms ->
  exists N, forall fuel, N <= fuel -> forall schedule b bom, bom_at h0 b bom ->
    bom_at (snd (run_pool schedule (start fuel calls) h0)) b bom.
Proof.
  intros h0 calls boms H1 H2. destruct (C01_callers_memory h0 calls boms H1 H2) as [N HN]. exists N. intros fuel Hf schedule b bom Hb.
  apply (bom_at_same h0); auto.
Qed.

(** The calls do not disturb each other: each one that ends has encoded exactly what a call
    on its own encodes, whatever the others do, and each one ends. *)
Theorem C01_undisturbed : forall h0 calls boms, callers_only h0 -> Forall2 (fun c bom => bom_at h0 (snd c) bom) calls boms ->
  exists N, forall fuel, N <= fuel -> exists steps, forall schedule i sv b bom,
    nth_error calls i = Some (sv, b) -> nth_error boms i = Some bom ->
    (forall r n, nth_error (fst (run_pool schedule (start fuel calls) h0)) i = Some (Ret r, n) ->
       exists c, copyAndConvert sv bom = Ok c /\ r = Ok (reify_BOM c)) /\
    (steps i <= count_occ Nat.eq_dec schedule i ->
       exists r n, nth_error (fst (run_pool schedule (start fuel calls) h0)) i = Some (Ret r, n)).
Proof.
  intros h0 calls boms H1 H2. destruct (start_on_course h0 calls boms H1 H2) as [N HN]. exists N. intros fuel Hf.
  destruct (HN fuel Hf) as [B HB]. exists B. intros schedule i sv b bom Hi Hb.
  pose proof (run_pool_on_course h0 _ schedule B _ _ HB) as HO.
  assert (HR : nth_error (map (fun cb => answer_of (fst (fst cb)) (snd cb)) (combine calls boms)) i = Some (answer_of sv bom)).
  { rewrite nth_error_map, (nth_combine _ _ _ _ _ Hi Hb). reflexivity. }
  split.
  - intros r n Hr. exists (convert sv (settle bom)). split; [apply copyAndConvert_settle|].
    destruct HO as (_ & _ & HO). destruct (HO _ _ _ Hr) as (r' & h' & n' & E1 & E2 & _). rewrite HR in E1. inversion E1; subst. inversion E2; subst. reflexivity.
  - intros Hs. destruct (on_course_end _ _ _ _ _ _ _ HO HR) as [n Hn]; [lia|]. eauto.
Qed.

(** No data race: a call writes only to memory it allocated itself, and reads only that and
    the caller's, which nobody writes. *)
Theorem C01_no_race : forall h0 calls boms, callers_only h0 -> Forall2 (fun c bom => bom_at h0 (snd c) bom) calls boms ->
  exists N, forall fuel, N <= fuel -> forall schedule i P n,
    nth_error (fst (run_pool schedule (start fuel calls) h0)) i = Some (P, n) ->
    (forall a p v k, P = Store (a, p) v k -> fst a = S i) /\ (forall a p k, P = Load (a, p) k -> fst a = 0 \/ fst a = S i).
Proof.
  intros h0 calls boms H1 H2. destruct (start_on_course h0 calls boms H1 H2) as [N HN]. exists N. intros fuel Hf schedule i P n Hi.
  destruct (HN fuel Hf) as [B HB]. destruct (run_pool_on_course h0 _ schedule B _ _ HB) as (_ & _ & HO).
  destruct (HO _ _ _ Hi) as (r & h' & n' & _ & E & _). split.
  - intros a p v k ->. cbn in E. destruct (Nat.eqb (fst a) (S i)) eqn:X; [apply Nat.eqb_eq, X|discriminate].
  - intros a p k ->. cbn [run] in E. destruct (Nat.eqb (fst a) 0 || Nat.eqb (fst a) (S i))%bool eqn:X; [|discriminate].
    apply orb_true_iff in X. rewrite !Nat.eqb_eq in X. auto.
Qed.

(** No call ever panics, and none fails. *)
Theorem C32_no_panic : forall h0 calls boms, callers_only h0 -> Forall2 (fun c bom => bom_at h0 (snd c) bom) calls boms ->
  exists N, forall fuel, N <= fuel -> forall schedule i P n,
    nth_error (fst (run_pool schedule (start fuel calls) h0)) i = Some (P, n) ->
    P <> Crash /\ P <> Loop /\ forall e, P <> Ret (Err e).
Proof.
  intros h0 calls boms H1 H2. destruct (start_on_course h0 calls boms H1 H2) as [N HN]. exists N. intros fuel Hf schedule i P n Hi.
  destruct (HN fuel Hf) as [B HB]. destruct (run_pool_on_course h0 _ schedule B _ _ HB) as (_ & _ & HO).
  destruct (HO _ _ _ Hi) as (r & h' & n' & E0 & E & _). split; [|split]; intros; intros ->; cbn in E; try discriminate.
  inversion E; subst. rewrite nth_error_map in E0. destruct (nth_error (combine calls boms) i); discriminate.
Qed.

(** Every BOM, with every pattern of absent parts, lies in some memory; and any linked-up
    memory is covered, for instance this one: manufacturer and supplier are the same cell,
    and two contacts of two organizations too. *)
Theorem C32_every_bom : forall bom, exists h b, callers_only h /\ bom_at h b bom.
Proof. exact every_bom_placed. Qed.

Definition shared_org : OrganizationalEntity :=
  set_OrganizationalEntity_Contact (list_of [set_OrganizationalContact_Name "n" (set_OrganizationalContact_BOMRef "r" zero_OrganizationalContact)])
    (set_OrganizationalEntity_Address (Some (set_PostalAddress_Country "c" zero_PostalAddress)) zero_OrganizationalEntity).
Definition shared_bom : BOM :=
  set_BOM_Metadata (Some (set_Metadata_Manufacture (Some shared_org) (set_Metadata_Supplier (Some shared_org) zero_Metadata))) (set_BOM_SpecVersion SpecVersion1_6 zero_BOM).
Fixpoint flat (v : val) : hval :=
  match v with
  | VStr s => HStr s | VInt z => HInt z | VBool b => HBool b | VFlt f => HFlt f
  | VPtr _ => HPtr None | VSlice _ => HSlice None | VStruct l => HStruct (map flat l)
  end.
Definition shared_heap : heap := fun a =>
  match a with
  | (0, 0) => Some (put_path (flat (reify_BOM shared_bom)) [ix fields_BOM "Metadata"] (HPtr (Some (0, 1))))
  | (0, 1) => Some (put_path (put_path (flat (reify_Metadata zero_Metadata)) [ix fields_Metadata "Manufacture"] (HPtr (Some (0, 2)))) [ix fields_Metadata "Supplier"] (HPtr (Some (0, 2))))
  | (0, 2) => Some (put_path (put_path (flat (reify_OrganizationalEntity shared_org)) [ix fields_OrganizationalEntity "Contact"] (HPtr (Some (0, 3))))
                             [ix fields_OrganizationalEntity "Address"] (HPtr (Some (0, 5))))
  | (0, 3) => Some (HSlice (Some (0, 4)))
  | (0, 4) => Some (HStruct [flat (reify_OrganizationalContact (set_OrganizationalContact_Name "n" (set_OrganizationalContact_BOMRef "r" zero_OrganizationalContact)))])
  | (0, 5) => Some (flat (reify_PostalAddress (set_PostalAddress_Country "c" zero_PostalAddress)))
  | _ => None
  end.
Example C01_nonvacuous : callers_only shared_heap /\ bom_at shared_heap (0, 0) shared_bom /\
  let after := run_pool (concat (repeat [0; 1; 1] 500)) (start 20 [(SpecVersion1_3, (0, 0)); (SpecVersion1_5, (0, 0))]) shared_heap in
  map fst (fst after) = [Ret (Ok (reify_BOM (convert SpecVersion1_3 shared_bom))); Ret (Ok (reify_BOM (convert SpecVersion1_5 shared_bom)))] /\
  convert SpecVersion1_3 shared_bom <> shared_bom /\ snd after (0, 4) = shared_heap (0, 4).
Proof.
  split; [|split; [|split; [|split]]].
  - intros [[|t] n]; [reflexivity|]. intros H. exfalso. apply H. reflexivity.
  - eexists. split; [vm_compute; reflexivity|]. repeat (vm_compute; econstructor).
  - vm_compute. reflexivity.
  - vm_compute. discriminate.
  - vm_compute. reflexivity.
Qed.

Definition heap_theorems := (C01_callers_memory, C01_same_bom, C01_undisturbed, C01_no_race, C32_no_panic, C32_every_bom).
Print Assumptions heap_theorems.
