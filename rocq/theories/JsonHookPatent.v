(** Reading back what PatentChoice.MarshalJSON writes. *)
From Verif Require Import Base Types Univ TypeTable Wt Reify ReifyBase Consts LinkModel Version VersionProofs Numbers NumbersProofs Utf8 Utf8Proofs GobModel GobProofs JsonModel JsonBack JsonProofs JsonHooks.
From Coq Require Import Lia.
Local Open Scope string_scope.

Lemma family_peek_ok : cross_ok fields_PatentFamily (peek_field "FamilyID" "familyId") [] = true. Proof. vm_compute. reflexivity. Qed.
Lemma patent_peek_ok : cross_ok fields_Patent (peek_field "FamilyID" "familyId") [] = true. Proof. vm_compute. reflexivity. Qed.
Lemma family_patent_ok : cross_ok fields_PatentFamily fields_Patent [] = true. Proof. vm_compute. reflexivity. Qed.
Lemma family_peek x1 x2 x3 x4 x5 : cross fields_PatentFamily [x1; x2; x3; x4; x5] (peek_field "FamilyID" "familyId") [VStr ""] = [x2].
Proof. vm_compute. reflexivity. Qed.
Lemma family_patent x1 x2 x3 x4 x5 : cross fields_PatentFamily [x1; x2; x3; x4; x5] fields_Patent (zeros_of fields_Patent)
  = [x1; VStr ""; VStr ""; VStr ""; x3; VStr ""; VStr ""; VStr ""; VStr ""; VStr ""; VStr ""; VStr ""; VPtr None; x5].
Proof. vm_compute. reflexivity. Qed.
Lemma patent_peek bs : cross fields_Patent bs (peek_field "FamilyID" "familyId") [VStr ""] = [VStr ""].
Proof. do 14 (destruct bs as [|? bs]; [vm_compute; reflexivity|]). vm_compute; reflexivity. Qed.
Lemma family_fields v1 v2 v3 v4 v5 b1 b2 b3 b4 b5 : exists x1 x3 x4 x5,
  back_fields fields_PatentFamily [v1; v2; v3; v4; v5] [b1; b2; b3; b4; b5] = [x1; b2; x3; x4; x5].
Proof. do 4 eexists. vm_compute. reflexivity. Qed.

Lemma unmarshal_patent s t a b : unmarshal HPatent s t [a; b] =
  bind (peek s "FamilyID" "familyId") (fun x =>
    if negb (String.eqb x "")
    then bind (unmarshal_into s (TRef "PatentFamily")) (fun p => Ok (VStruct [a; some_ptr p]))
    else bind (unmarshal_into s (TRef "Patent")) (fun c => Ok (VStruct [some_ptr c; b]))).
Proof. reflexivity. Qed.
Lemma back_patent fs x v b1 b2 : back_choice HPatent fs [VPtr (Some x); v] [b1; b2] = [b1; VPtr None].
Proof. reflexivity. Qed.
Lemma back_family fs x b1 ref id prio members ext :
  back_choice HPatent fs [VPtr None; VPtr (Some x)] [b1; VPtr (Some (VStruct [ref; VStr id; prio; members; ext]))] =
  if String.eqb id ""
  then [some_ptr (VStruct [ref; VStr ""; VStr ""; VStr ""; prio; VStr ""; VStr ""; VStr ""; VStr ""; VStr ""; VStr ""; VStr ""; VPtr None; ext]); VPtr None]
  else [VPtr None; some_ptr (VStruct [ref; VStr id; prio; members; ext])].
Proof. reflexivity. Qed.
Lemma marshal_patent fs a b ea eb : marshal HPatent fs [a; b] [ea; eb] =
  if nonnil a then ea true else if nonnil b then eb true else Ok (OObj []).
Proof. reflexivity. Qed.
Lemma encs_patent a b : encs [a; b] fields_PatentChoice = [fun esc => jenc esc (TPtr (TRef "Patent")) a; fun esc => jenc esc (TPtr (TRef "PatentFamily")) b].
Proof. reflexivity. Qed.
Lemma backs_patent a b : backs [a; b] fields_PatentChoice = [jback (TPtr (TRef "Patent")) a; jback (TPtr (TRef "PatentFamily")) b].
Proof. reflexivity. Qed.
Lemma zeros_patent : zeros_of fields_PatentChoice = [VPtr None; VPtr None].
Proof. reflexivity. Qed.
Lemma empty_patent : unmarshal HPatent (SObj []) (TRef "PatentChoice") [VPtr None; VPtr None]
  = Ok (VStruct [some_ptr (zero_of (TRef "Patent")); VPtr None]).
Proof. vm_compute. reflexivity. Qed.
Lemma empty_patent_back fs t1 t2 : back_choice HPatent fs [VPtr None; VPtr None] [jback t1 (VPtr None); jback t2 (VPtr None)]
  = [some_ptr (zero_of (TRef "Patent")); VPtr None].
Proof. reflexivity. Qed.
Lemma wt_family ds : wt (TPtr (TRef "PatentFamily")) (VPtr (Some (VStruct ds))) -> zip_all (fun f x => wt (f_ty f) x) ds fields_PatentFamily.
Proof. trivial. Qed.
Lemma backs_family a sb c d e : exists b1 b3 b4 b5, backs [a; VStr sb; c; d; e] fields_PatentFamily = [b1; VStr (to_utf8 sb); b3; b4; b5].
Proof. unfold fields_PatentFamily. cbn [backs f_ty]. do 4 eexists. reflexivity. Qed.

Lemma patent_case t fs ds v b2 o : rows fields_Patent ds (encs ds fields_Patent) (backs ds fields_Patent) ->
  enc_struct true fields_Patent ds (encs ds fields_Patent) = Ok o ->
  unmarshal HPatent (shape_of (erase o)) t [VPtr None; VPtr None]
  = Ok (VStruct (back_choice HPatent fs [VPtr (Some (VStruct ds)); v]
                   [VPtr (Some (VStruct (back_fields fields_Patent ds (backs ds fields_Patent)))); b2])).
Proof.
  intros R E. rewrite unmarshal_patent, back_patent.
  rewrite (peek_cross _ _ _ _ true o "FamilyID" "familyId" "" R E patent_peek_ok (patent_peek _)).
  change (bind (unmarshal_into (shape_of (erase o)) (TRef "Patent")) (fun c => Ok (VStruct [some_ptr c; VPtr None]))
          = Ok (VStruct [VPtr (Some (VStruct (back_fields fields_Patent ds (backs ds fields_Patent)))); VPtr None])).
  rewrite (plain_unmarshal (TRef "Patent") _ _ _ _ true o eq_refl R E). reflexivity.
Qed.

Lemma family_case t fs ds b1 o : wt (TPtr (TRef "PatentFamily")) (VPtr (Some (VStruct ds))) ->
  rows fields_PatentFamily ds (encs ds fields_PatentFamily) (backs ds fields_PatentFamily) ->
  enc_struct true fields_PatentFamily ds (encs ds fields_PatentFamily) = Ok o ->
  unmarshal HPatent (shape_of (erase o)) t [VPtr None; VPtr None]
  = Ok (VStruct (back_choice HPatent fs [VPtr None; VPtr (Some (VStruct ds))]
                   [b1; VPtr (Some (VStruct (back_fields fields_PatentFamily ds (backs ds fields_PatentFamily))))])).
Proof.
  intros Wd R E. apply wt_family in Wd. destruct (rows_length _ _ _ _ R) as (L & _ & _).
  destruct ds as [|a [|b [|c [|d [|e [|? ds]]]]]]; try discriminate L. unfold fields_PatentFamily in Wd. cbn [zip_all f_ty] in Wd. destruct Wd as (_ & Wb & _).
  destruct (wt_str b Wb) as (sb & ->). clear Wb L.
  destruct (backs_family a sb c d e) as (c1 & b3 & b4 & b5 & B). rewrite B in R. rewrite B. clear B.
  destruct (family_fields a (VStr sb) c d e c1 (VStr (to_utf8 sb)) b3 b4 b5) as (x1 & x2 & x3 & x4 & B).
  rewrite unmarshal_patent, B, back_family.
  rewrite (peek_cross _ _ _ _ true o "FamilyID" "familyId" (to_utf8 sb) R E family_peek_ok); [|rewrite B; apply family_peek].
  cbn [bind].
  destruct (String.eqb (to_utf8 sb) ""); cbn [negb].
  - rewrite (cross_unmarshal (TRef "Patent") fields_Patent _ _ _ _ true o eq_refl R E family_patent_ok). rewrite B, family_patent. reflexivity.
  - rewrite (plain_unmarshal (TRef "PatentFamily") _ _ _ _ true o eq_refl R E). rewrite B. reflexivity.
Qed.

Lemma nonnil_some x : nonnil (VPtr (Some x)) = true. Proof. reflexivity. Qed.
Lemma nonnil_none : nonnil (VPtr None) = false. Proof. reflexivity. Qed.

Lemma hook_patent : hook_ok HPatent (TRef "PatentChoice") fields_PatentChoice.
Proof.
  intros vs o W S G P E. unfold fields_PatentChoice in W, S.
  fields2 W S vs patent family. split_foralls.
  rewrite encs_patent, marshal_patent in E. rewrite backs_patent, zeros_patent.
  destruct (parts (TRef "Patent") fields_Patent patent) as [->|(ds & -> & R & En & Bk)]; try assumption; try reflexivity.
  - destruct (parts (TRef "PatentFamily") fields_PatentFamily family) as [->|(ds & -> & R & En & Bk)]; try assumption; try reflexivity.
    + rewrite nonnil_none in E. injection E as <-. rewrite empty_patent_back. change (shape_of (erase (OObj []))) with (SObj []). exact empty_patent.
    + rewrite nonnil_none, nonnil_some in E. apply En in E. rewrite Bk. apply family_case; assumption.
  - rewrite nonnil_some in E. apply En in E. rewrite Bk. apply patent_case; assumption.
Qed.
