(** Property theorems C14: the deep copy (/repo/copy.go), and what follows for the
    conversion of a copy (/repo/convert.go:23-32). *)
From Verif Require Import Base Types Univ TypeTable Wt Reify Consts Version ConvertModel ConvertSpec GobModel GobSpec GobProofs ExampleBom.
Local Open Scope string_scope.
Local Open Scope Z_scope.

(** C14: copying never fails, and the copy is the BOM except that, at any depth, a
    pointer to false, 0, "" or an empty list has become nil and an empty list nil. *)
Theorem C14_copy_partial : forall b, exists c, copy b = Ok c /\ copied (reify_BOM b) (reify_BOM c).
Proof. exact copy_total. Qed.
Print Assumptions C14_copy_partial.

(** Nothing else can come out. *)
Theorem C14_copy_determined : forall b c, copy b = Ok c <-> copied (reify_BOM b) (reify_BOM c).
Proof. exact copy_unique. Qed.
Print Assumptions C14_copy_determined.

(** The copy is equal to the BOM exactly if there is no such pointer and no such list. *)
Theorem C14_copy_exact : forall b, copy b = Ok b <-> nothing_to_lose (reify_BOM b).
Proof. exact copy_exact. Qed.
Print Assumptions C14_copy_exact.

(** Copying a copy loses nothing more. *)
Theorem C14_copy_again : forall b c, copy b = Ok c -> copy c = Ok c.
Proof. exact copy_again. Qed.
Print Assumptions C14_copy_again.

(** Finding: the copy is not equal to the BOM in what the formats express. A service
    that says "authenticated": false, and an algorithm with NIST security level 0, lose
    the statement. *)
Definition b_auth : BOM := set_BOM_Services (list_of [set_Service_Authenticated (Some false) zero_Service]) NewBOM.
Definition b_nist : BOM := set_BOM_Components (list_of [set_Component_CryptoProperties (Some
  (set_CryptoProperties_AlgorithmProperties (Some (set_CryptoAlgorithmProperties_NistQuantumSecurityLevel (Some 0) zero_CryptoAlgorithmProperties))
     zero_CryptoProperties)) zero_Component]) NewBOM.
Theorem C14_copy_refuted :
  copy b_auth = copy (set_BOM_Services (list_of [set_Service_Authenticated None zero_Service]) NewBOM) /\
  copy b_nist = copy (set_BOM_Components (list_of [set_Component_CryptoProperties (Some
    (set_CryptoProperties_AlgorithmProperties (Some (set_CryptoAlgorithmProperties_NistQuantumSecurityLevel None zero_CryptoAlgorithmProperties))
     zero_CryptoProperties)) zero_Component]) NewBOM).
Proof. split; vm_compute; reflexivity. Qed.
Print Assumptions C14_copy_refuted.

(** The fields of the Go types whose value, if it is zero, the copy loses: those that
    are pointers to a number, a truth value or a string. *)
Definition scalar (t : ty) : bool := match kind_of t with KStr | KInt | KBool | KFlt => true | _ => false end.
Definition lossy_scalars : list (string * string) :=
  flat_map (fun d => match snd d with
                     | DStruct fs => flat_map (fun f => match f_ty f with
                                                        | TPtr t => if scalar t then [(fst d, f_name f)] else []
                                                        | _ => []
                                                        end) fs
                     | DAlias _ => []
                     end) defs.
Theorem C14_lossy_scalars : forall s f, In (s, f) lossy_scalars <->
  In (s, f) [("LicenseChoice", "Acknowledgement"); ("SWID", "TagVersion"); ("SWID", "Patch");
             ("EvidenceIdentityMethod", "Confidence"); ("EvidenceIdentity", "Confidence");
             ("EvidenceOccurrence", "Line"); ("EvidenceOccurrence", "Offset");
             ("CallstackFrame", "Line"); ("CallstackFrame", "Column");
             ("CryptoAlgorithmProperties", "ClassicalSecurityLevel"); ("CryptoAlgorithmProperties", "NistQuantumSecurityLevel");
             ("RelatedCryptoMaterialProperties", "Size"); ("IKEv2Enc", "KeyLength"); ("IKEv2Ke", "Group");
             ("AsserterChoice", "BOMRef"); ("Component", "Modified"); ("Component", "IsExternal");
             ("Service", "Authenticated"); ("Service", "CrossesTrustBoundary");
             ("AttestationConformance", "Score"); ("AttestationConfidence", "Score"); ("VulnerabilityRating", "Score");
             ("Volume", "Persistent"); ("Volume", "Remote"); ("Citation", "AttributedTo")].
Proof. intros s f. replace lossy_scalars with (ltac:(let x := eval vm_compute in lossy_scalars in exact x)) by (vm_compute; reflexivity). reflexivity. Qed.
Print Assumptions C14_lossy_scalars.

(** ** The copy that EncodeVersion converts *)

(** copyAndConvert never fails, and gives the conversion of the copy. *)
Theorem C14_copy_and_convert : forall sv b, exists c, copied (reify_BOM b) (reify_BOM c) /\ copyAndConvert sv b = Ok (convert sv c).
Proof.
  intros sv b. destruct (copy_total b) as (c & C & H). exists c. split; [exact H|]. unfold copyAndConvert. rewrite C. reflexivity.
Qed.
Print Assumptions C14_copy_and_convert.

(** For a BOM with nothing to lose it is the conversion of the BOM. *)
Theorem C14_copy_and_convert_exact : forall sv b, nothing_to_lose (reify_BOM b) -> copyAndConvert sv b = Ok (convert sv b).
Proof. intros sv b H. apply copy_exact in H. unfold copyAndConvert. rewrite H. reflexivity. Qed.
Print Assumptions C14_copy_and_convert_exact.

Example C14_nonvacuous : nothing_to_lose (reify_BOM (set_BOM_Services None (set_BOM_Metadata None ex_bom))) /\
  ~ nothing_to_lose (reify_BOM ex_bom) /\ ~ nothing_to_lose (reify_BOM b_auth).
Proof.
  rewrite !nothing_to_lose_iff. split; [vm_compute; reflexivity|]. split; vm_compute; discriminate.
Qed.
