(** BOMs nested deeper than encoding/xml decodes: a chain of components, each with one
    component. *)
From Verif Require Import Base Types Univ TypeTable Wt Reify Consts Version ExampleBom ConvertModel GobModel JsonModel XmlModel XmlTable XmlBack XmlSpec XmlProofs XmlRound XmlTop.
From Coq Require Import Lia.
Local Open Scope string_scope.

Fixpoint nest_xml (sp : string) (n : nat) : xml :=
  XElem sp "component" [("type", "library")]
    (XElem sp "name" [] [XText "c"] :: match n with O => [] | S m => [XElem sp "components" [] [nest_xml sp m]] end).

Lemma nest_struct n : exists l, reify_Component (nest n) = VStruct l.
Proof. destruct n; eexists; reflexivity. Qed.
Lemma nest_encodes n : forall omit, nenc (annotate (reify_Component (nest n))) (TRef "Component") omit "component" = Ok [nest_xml "" n].
Proof.
  induction n as [|n IH]; intros omit; [reflexivity|].
  change (reify_Component (nest (S n))) with (reify_Component (set_Component_Components (Some (Some [nest n])) leaf)).
  destruct (nest_struct n) as (l & Q).
  assert (G : forall c, reify_Component c = VStruct l -> nenc (annotate (VStruct l)) (TRef "Component") true "component" = Ok [nest_xml "" n] ->
    nenc (annotate (reify_Component (set_Component_Components (Some (Some [c])) leaf))) (TRef "Component") omit "component" = Ok [nest_xml "" (S n)]).
  { clear. intros c Q H. remember (nest_xml "" n) as e eqn:Y. cbn [nest_xml]. rewrite <- Y. clear Y.
    assert (R : reify_Component (set_Component_Components (Some (Some [c])) leaf) = match reify_Component leaf with VStruct vs => VStruct (set_nth 25 (VPtr (Some (VSlice (Some [reify_Component c])))) vs) | v => v end) by reflexivity.
    rewrite R, Q. clear R Q.
    change (annotate _) with (Node (match reify_Component leaf with VStruct vs => VStruct (set_nth 25 (VPtr (Some (VSlice (Some [VStruct l])))) vs) | v => v end)
       (encode (match reify_Component leaf with VStruct vs => VStruct (set_nth 25 (VPtr (Some (VSlice (Some [VStruct l])))) vs) | v => v end)
          (set_nth 25 (annotate (VPtr (Some (VSlice (Some [VStruct l]))))) (nsubs (annotate (reify_Component leaf)))))
       (set_nth 25 (annotate (VPtr (Some (VSlice (Some [VStruct l]))))) (nsubs (annotate (reify_Component leaf))))).
    change (annotate (VPtr (Some (VSlice (Some [VStruct l]))))) with
      (let a := annotate (VStruct l) in let s := Node (VSlice (Some [VStruct l])) (encode (VSlice (Some [VStruct l])) [a]) [a] in Node (VPtr (Some (VSlice (Some [VStruct l])))) (encode (VPtr (Some (VSlice (Some [VStruct l])))) [s]) [s]).
    assert (V : nval (annotate (VStruct l)) = VStruct l) by reflexivity.
    revert H V. generalize (annotate (VStruct l)). intros [v enc subs] H V. cbn in H, V. subst v. cbv zeta.
    lazy. lazy in H. rewrite H. reflexivity. }
  apply (G (nest n) Q). rewrite <- Q. apply IH.
Qed.

Section Limits.
Context {Lim : Limit}.
Definition nest_rest (sp : string) (n : nat) : list kid := match n with O => [] | S m => [waiting (XElem sp "components" [] [nest_xml sp m])] end.
(** The name is decoded, unless it is already too deep; then comes the chain. *)
Lemma nest_value sp n depth : (match n with O => False | S m => forall cur, xdec (nest_xml sp m) (TPtr (TSlice (TRef "Component"))) (N.succ depth) cur = Err XDepth end) ->
  dec_value sp "component" [("type", "library")] (map waiting (XElem sp "name" [] [XText "c"] :: match n with O => [] | S m => [XElem sp "components" [] [nest_xml sp m]] end))
    (TRef "Component") depth (zero_of (TRef "Component")) = Err XDepth.
Proof.
  destruct n as [|m]; [intros []|]. intros H. change (unmarshaler (TRef "Component")) with MNone. unfold dec_value. change (unmarshaler (TRef "Component")) with MNone. cbv iota beta.
  change (kind_of (TRef "Component")) with (KStruct fields_Component). cbv iota beta.
  assert (W : exists a, waiting (nest_xml sp m) = KElem sp "component" [("type", "library")] a (xdec (nest_xml sp m))) by (destruct m; eexists; reflexivity). destruct W as (ks & W).
  cbn [map waiting]. rewrite W. revert H. generalize (xdec (nest_xml sp m)). intros dec H. clear W.
  unfold dec_struct. change (xml_name fields_Component) with (@None string). cbv iota beta.
  change (set_name fields_Component sp "component" (fields_of_val (zero_of (TRef "Component")))) with (fields_of_val (zero_of (TRef "Component"))).
  change (set_attrs fields_Component [("type", "library")] (fields_of_val (zero_of (TRef "Component")))) with (@Ok xerr _ (set_nth 2 (VStr "library") (fields_of_val (zero_of (TRef "Component"))))).
  cbn [bind dec_kids]. change (find_place None "name" 0 fields_Component) with (Some (Here 9)). change (find_place None "components" 0 fields_Component) with (Some (Inside "components")). cbv iota beta.
  assert (N : forall dec', dec_at fields_Component 9 dec' depth (set_nth 2 (VStr "library") (fields_of_val (zero_of (TRef "Component")))) =
    bind (dec' TStr (N.succ depth) (VStr "")) (fun v => Ok (set_nth 9 v (set_nth 2 (VStr "library") (fields_of_val (zero_of (TRef "Component"))))))) by reflexivity.
  rewrite N. clear N. unfold dec_elem. destruct (limit <=? N.succ depth)%N eqn:L; [reflexivity|].
  assert (K : forall dec', match kind_of TStr with KPtr t' => dec' t' | _ => @Ok xerr val (VStr "c") end = Ok (VStr "c")) by reflexivity.
  cbn [kind_of kind_base]. change (dec_slice sp "name" [] [KText "c"] TStr (N.succ depth) (VStr "")) with (@Ok xerr _ (VStr "c")). clear K. change (kind_base TStr) with (kind_of TStr). cbn [bind kind_of kind_base]. cbv beta iota. cbn [bind].
  set (old := set_nth 2 (VStr "library") (fields_of_val (zero_of (TRef "Component")))). pose (cur := set_nth 9 (VStr "c") old). change (set_nth 9 (VStr "c") old) with cur.
  assert (Q : nth_error cur 25 = Some (VPtr None)) by reflexivity. clearbody cur.
  cbn [dec_inside]. change (find_place (Some "components") "component" 0 fields_Component) with (Some (Here 25)). cbv iota beta.
  assert (N : dec_at fields_Component 25 dec depth cur = bind (dec (TPtr (TSlice (TRef "Component"))) (N.succ depth) (VPtr None)) (fun v => Ok (set_nth 25 v cur))).
  { unfold dec_at. rewrite Q. reflexivity. }
  rewrite N, H. reflexivity.
Qed.
Lemma nest_deep sp n : forall depth cur, (limit <= depth + 2 * N.of_nat n + 1)%N -> xdec (nest_xml sp n) (TPtr (TSlice (TRef "Component"))) depth cur = Err XDepth.
Proof.
  induction n as [|m IH]; intros depth cur D.
  - unfold xdec. cbn [nest_xml waiting map]. unfold dec_elem. destruct (limit <=? depth)%N eqn:L; [reflexivity|]. change (kind_of (TPtr (TSlice (TRef "Component")))) with (KPtr (TSlice (TRef "Component"))). cbv iota beta.
    unfold dec_slice at 1. change (unmarshaler (TSlice (TRef "Component"))) with MNone. change (kind_of (TSlice (TRef "Component"))) with (KSlice (TRef "Component")). cbv iota beta.
    destruct (limit <=? N.succ depth)%N eqn:L'; [reflexivity|]. apply N.leb_gt in L'. lia.
  - unfold xdec. cbn [nest_xml waiting]. unfold dec_elem at 1. destruct (limit <=? depth)%N eqn:L; [reflexivity|]. change (kind_of (TPtr (TSlice (TRef "Component")))) with (KPtr (TSlice (TRef "Component"))). cbv iota beta.
    unfold dec_slice at 1. change (unmarshaler (TSlice (TRef "Component"))) with MNone. change (kind_of (TSlice (TRef "Component"))) with (KSlice (TRef "Component")). cbv iota beta.
    destruct (limit <=? N.succ depth)%N eqn:L'; [reflexivity|].
    rewrite (nest_value sp (S m) (N.succ depth)); [reflexivity|]. intros c. apply IH. lia.
Qed.
End Limits.

(** The document. *)
Definition nest_doc (sp : string) (n : nat) : xml :=
  XElem sp "bom" [("xmlns", map_get xmlNamespaces SpecVersion1_7); ("version", "1")] [XElem sp "components" [] [nest_xml sp n]].
Lemma nest_bom_encodes n : bom_to_xml (b_nest n) = Ok [nest_doc "" n].
Proof.
  unfold bom_to_xml, nest_doc, b_nest, list_of. pose proof (nest_encodes n true) as H. destruct (nest_struct n) as (l & Q). revert H. rewrite Q.
  generalize (nest_xml "" n). intros e H.
  assert (R : reify_BOM (set_BOM_Components (Some (Some [nest n])) NewBOM) = match reify_BOM NewBOM with VStruct vs => VStruct (set_nth 8 (VPtr (Some (VSlice (Some [reify_Component (nest n)])))) vs) | v => v end) by reflexivity.
  rewrite R, Q. clear R Q.
  change (annotate _) with (Node (match reify_BOM NewBOM with VStruct vs => VStruct (set_nth 8 (VPtr (Some (VSlice (Some [VStruct l])))) vs) | v => v end)
     (encode (match reify_BOM NewBOM with VStruct vs => VStruct (set_nth 8 (VPtr (Some (VSlice (Some [VStruct l])))) vs) | v => v end)
        (set_nth 8 (annotate (VPtr (Some (VSlice (Some [VStruct l]))))) (nsubs (annotate (reify_BOM NewBOM)))))
     (set_nth 8 (annotate (VPtr (Some (VSlice (Some [VStruct l]))))) (nsubs (annotate (reify_BOM NewBOM))))).
  change (annotate (VPtr (Some (VSlice (Some [VStruct l]))))) with
    (let a := annotate (VStruct l) in let s := Node (VSlice (Some [VStruct l])) (encode (VSlice (Some [VStruct l])) [a]) [a] in Node (VPtr (Some (VSlice (Some [VStruct l])))) (encode (VPtr (Some (VSlice (Some [VStruct l])))) [s]) [s]).
  assert (V : nval (annotate (VStruct l)) = VStruct l) by reflexivity.
  revert H V. generalize (annotate (VStruct l)). intros [v enc subs] H V. cbn in H, V. subst v. cbv zeta. lazy. lazy in H. rewrite H. reflexivity.
Qed.
Lemma resolve_nest sp n : resolve sp (nest_xml "" n) = nest_xml sp n.
Proof. induction n as [|n IH]; [reflexivity|]. cbn [nest_xml resolve map declared]. cbn. rewrite IH. reflexivity. Qed.
Lemma nest_seen n : xml_seen false (nest_doc "" n) = nest_doc (map_get xmlNamespaces SpecVersion1_7) n.
Proof. unfold xml_seen, nest_doc. cbn. rewrite resolve_nest. reflexivity. Qed.
Lemma nest_bom_deep n entries : (4999 <= N.of_nat n)%N -> bom_of_xml entries (xml_seen false (nest_doc "" n)) zero_BOM = Err XDepth.
Proof.
  intros D. rewrite nest_seen. generalize (map_get xmlNamespaces SpecVersion1_7) at 1. intros sp. unfold bom_of_xml, bom_within.
  pose proof (@nest_deep go_limit sp n 1%N) as H. assert (L : (@limit go_limit <= 1 + 2 * N.of_nat n + 1)%N) by (unfold limit, half, go_limit; lia). specialize (fun cur => H cur L). clear L D.
  assert (W : exists a, @waiting go_limit (nest_xml sp n) = KElem sp "component" [("type", "library")] a (@xdec go_limit (nest_xml sp n))) by (destruct n; eexists; reflexivity). destruct W as (ks & W).
  unfold nest_doc. unfold xdec. cbn [waiting map]. rewrite W. revert H. generalize (@xdec go_limit (nest_xml sp n)). intros dec H.
  unfold dec_elem at 1. change (@limit go_limit <=? 0)%N with false. cbv iota beta. change (kind_of (TRef "BOM")) with (KStruct fields_BOM). cbv iota beta.
  unfold dec_slice at 1. change (unmarshaler (TRef "BOM")) with MNone. change (kind_of (TRef "BOM")) with (KStruct fields_BOM). cbv iota beta. unfold dec_value.
  change (unmarshaler (TRef "BOM")) with MNone. change (kind_of (TRef "BOM")) with (KStruct fields_BOM). cbv iota beta. unfold dec_struct.
  change (match xml_name fields_BOM with Some n0 => negb (n0 =? "bom")%string | None => false end) with false. cbv iota beta.
  change (set_name fields_BOM sp "bom" (fields_of_val (reify_BOM zero_BOM))) with (set_nth 0 (VStruct [VStr sp; VStr "bom"]) (fields_of_val (reify_BOM zero_BOM))).
  change (set_attrs fields_BOM [("xmlns", map_get xmlNamespaces SpecVersion1_7); ("version", "1")] (set_nth 0 (VStruct [VStr sp; VStr "bom"]) (fields_of_val (reify_BOM zero_BOM))))
    with (@Ok xerr _ (set_nth 6 (VInt 1) (set_nth 1 (VStr (map_get xmlNamespaces SpecVersion1_7)) (set_nth 0 (VStruct [VStr sp; VStr "bom"]) (fields_of_val (reify_BOM zero_BOM)))))).
  cbn [bind dec_kids]. change (find_place None "components" 0 fields_BOM) with (Some (Inside "components")). cbv iota beta.
  cbn [dec_inside]. change (find_place (Some "components") "component" 0 fields_BOM) with (Some (Here 8)). cbv iota beta.
  match goal with |- context [dec_at fields_BOM 8 dec 0 ?c] => assert (N : dec_at fields_BOM 8 dec 0 c = bind (dec (TPtr (TSlice (TRef "Component"))) 1%N (VPtr None)) (fun v => Ok (set_nth 8 v c))) by reflexivity end.
  rewrite N, H. reflexivity.
Qed.
Lemma nest_sane n : xsane (TRef "Component") (reify_Component (nest n)).
Proof. induction n as [|n IH]; [lazy; tauto|]. cbn. repeat (split; [exact I|]). split; [split; [exact IH|exact I]|]. repeat (split; [exact I|]). exact I. Qed.
Lemma nest_bom_sane n : bom_sane (b_nest n).
Proof. pose proof (nest_sane n) as H. unfold bom_sane, b_nest. cbn. repeat (split; [first [exact I|exact eq_refl|exact (conj I (conj I I))]|]). split; [split; [exact H|exact I]|]. repeat (split; [exact I|]). exact I. Qed.
