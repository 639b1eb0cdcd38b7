(** Property theorems C11 and C12: converting twice (/repo/convert.go). *)
From Verif Require Import Base Types Version ConvertModel ConvertSpec ConvertReach ConvertStep ExampleBom.
From Coq Require Import Lia.
Local Open Scope string_scope.
Local Open Scope Z_scope.

(** C11: converting to the same version again changes nothing. *)
Theorem C11_idempotent : forall sv b, convert sv (convert sv b) = convert sv b.
Proof. exact convert_twice. Qed.
Print Assumptions C11_idempotent.

Example C11_nonvacuous : convert v1_3 ex_bom <> ex_bom /\ convert v1_3 (convert v1_3 ex_bom) = convert v1_3 ex_bom.
Proof. split; [vm_compute; discriminate|apply C11_idempotent]. Qed.

(** C12: going down over an intermediate version makes no difference, unless the
    detour is from 1.3 or 1.4 over 1.5 or 1.6. *)
Theorem C12_stepwise_partial : forall lo hi b,
  lo <= hi -> (hi < v1_5 \/ v1_7 <= hi \/ lo < v1_3 \/ v1_5 <= lo) ->
  convert lo (convert hi b) = convert lo b.
Proof. exact convert_stepwise. Qed.
Print Assumptions C12_stepwise_partial.

(** For those, too, if the licenses in the evidence of the components, at every
    depth, are expressible in the intermediate version. *)
Theorem C12_stepwise_evidence : forall lo hi b,
  lo <= hi ->
  (forall r steps c e, component_at b r steps = Some c -> Component_Evidence c = Some e ->
     licenses_in hi (Evidence_Licenses e) = Evidence_Licenses e) ->
  convert lo (convert hi b) = convert lo b.
Proof. exact convert_stepwise_evidence. Qed.
Print Assumptions C12_stepwise_evidence.

(** Finding: without that the detour is visible, for every such pair of versions,
    since 1.3 and 1.4 keep evidence licenses as they are. *)
Theorem C12_stepwise_refuted : forall lo hi, v1_3 <= lo < v1_5 -> v1_5 <= hi < v1_7 ->
  exists b, convert lo (convert hi b) <> convert lo b.
Proof.
  intros lo hi L H.
  exists (set_BOM_Components (list_of [set_Component_Evidence (Some (set_Evidence_Licenses
            (list_of [set_LicenseChoice_Licensing (Some zero_Licensing) zero_LicenseChoice]) zero_Evidence)) zero_Component]) NewBOM).
  assert (lo = 4 \/ lo = 5) as [-> | ->] by (unfold v1_3, v1_5 in L; lia);
    (assert (hi = 6 \/ hi = 7) as [-> | ->] by (unfold v1_5, v1_7 in H; lia));
    vm_compute; discriminate.
Qed.
Print Assumptions C12_stepwise_refuted.

Example C12_nonvacuous :
  v1_1 <= v1_5 /\ v1_1 < v1_3 /\ convert v1_5 ex_bom <> ex_bom /\ convert v1_1 ex_bom <> convert v1_5 ex_bom.
Proof. repeat split; vm_compute; discriminate. Qed.

Example C12_evidence_nonvacuous :
  let b := set_BOM_Components (list_of [set_Component_Evidence (Some (set_Evidence_Licenses (list_of [ex_license]) zero_Evidence)) zero_Component]) NewBOM in
  (forall r steps c e, component_at b r steps = Some c -> Component_Evidence c = Some e ->
     licenses_in v1_5 (Evidence_Licenses e) = Evidence_Licenses e) /\
  exists c e, component_at b (Listed 0) [] = Some c /\ Component_Evidence c = Some e /\ members (Evidence_Licenses e) = [ex_license].
Proof.
  split.
  - intros r steps c e. destruct r as [[|i]|]; cbn; [|destruct i; discriminate|discriminate].
    destruct steps as [|[i|i|i|i] steps]; cbn; [intros E; injection E as <-|destruct i; discriminate..].
    cbn. intros E; injection E as <-. vm_compute. reflexivity.
  - do 2 eexists. repeat split.
Qed.
