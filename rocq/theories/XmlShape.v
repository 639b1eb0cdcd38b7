(** What the XML encoder writes, in terms of types: for C46. *)
From Verif Require Import Base Types Univ TypeTable Wt ReifyBase Reify ReifyFacts Consts JsonModel JsonProofs JsonHooks XmlModel XmlBack XmlTable XmlSpec XmlProofs XmlPairs XmlStructs XmlRound XmlLossProofs XmlOffence XmlNeat XmlErrors XsdSpec.
Local Open Scope string_scope.

Lemma refs_plain n : marshaler (TRef n) = MNone -> match kind_of (TRef n) with KPtr _ | KSlice _ => False | _ => True end.
Proof.
  intros M. cbn [kind_of]. destruct (assoc n defs) as [d|] eqn:A; [|exact I].
  assert (T : forallb (fun p => match snd p with DAlias t => match kind_base t with KPtr _ | KSlice _ => match marshaler (TRef (fst p)) with MNone => false | _ => true end | _ => true end | _ => true end) defs = true) by (vm_compute; reflexivity).
  rewrite forallb_forall in T. assert (Hi : In (n, d) defs). { clear -A. induction defs as [|(m, e) l IH]; [discriminate A|]. cbn [assoc] in A. destruct (String.eqb_spec m n) as [->|]; [injection A as ->; left; reflexivity|right; apply IH, A]. }
  specialize (T _ Hi). cbn [fst snd] in T. destruct d as [fs|t]; [exact I|]. rewrite M in T. destruct (kind_base t); try exact I; discriminate T.
Qed.
(** ** How many elements are written *)
Fixpoint single (t : ty) : bool := match t with TPtr t' => single t' | TSlice _ => false | _ => true end.
Definition lone (v : val) : Prop := forall t omit name xs, wt t v -> single t = true -> nenc (annotate v) t omit name = Ok xs -> length xs <= 1.
Lemma struct_lone fs ns name xs : enc_struct fs ns name = Ok xs -> length xs <= 1.
Proof. unfold enc_struct. destruct (enc_fields fs ns); [|discriminate]. intros E. injection E as <-. apply le_n. Qed.
Lemma within_lone name r xs : within name r = Ok xs -> length xs <= 1.
Proof. unfold within. destruct r; [|discriminate]. intros E. injection E as <-. apply le_n. Qed.
Lemma marshal_lone m fs v ns name xs : (m = MDataset -> forall ref data ys, ns = [ref; data] -> nenc data (TPtr (TRef "ComponentData")) false name = Ok ys -> length ys <= 1) ->
  marshal m fs v ns name = Ok xs -> length xs <= 1.
Proof.
  intros D E. destruct m; cbn [marshal] in E.
  all: try specialize (D eq_refl).
  all: repeat match type of E with
       | Err _ = Ok _ => discriminate E
       | Ok [] = Ok _ => injection E as <-; apply le_S, le_n
       | Ok [_] = Ok _ => injection E as <-; apply le_n
       | enc_struct _ _ _ = Ok _ => exact (struct_lone _ _ _ _ E)
       | within _ _ = Ok _ => exact (within_lone _ _ _ E)
       | nenc _ (TPtr (TRef "ComponentData")) _ _ = Ok _ => exact (D _ _ _ eq_refl E)
       | bind ?r _ = Ok _ => destruct r; cbn [bind] in E
       | match ?x with _ => _ end = Ok _ => destruct x
       end.
Qed.
Lemma never_pointer n : match kind_of (TRef n) with KPtr _ => False | _ => True end.
Proof.
  cbn [kind_of]. destruct (assoc n defs) as [d|] eqn:A; [|exact I].
  assert (T : forallb (fun p => match snd p with DAlias t => match kind_base t with KPtr _ => false | _ => true end | _ => true end) defs = true) by (vm_compute; reflexivity).
  rewrite forallb_forall in T. assert (Hi : In (n, d) defs). { clear -A. induction defs as [|(m, e) l IH]; [discriminate A|]. cbn [assoc] in A. destruct (String.eqb_spec m n) as [->|]; [injection A as ->; left; reflexivity|right; apply IH, A]. }
  specialize (T _ Hi). cbn [fst snd] in T. destruct d as [fs|t]; [exact I|]. destruct (kind_base t); try exact I; discriminate T.
Qed.
Lemma dataset_only t : marshaler t = MDataset -> t = TRef "MLDatasetChoice".
Proof.
  intros M. destruct t as [| | | | | | |n]; try discriminate M. unfold marshaler in M. destruct (assoc n xml_methods) as [m|] eqn:A; [|discriminate M]. apply assoc_methods in A. subst m. unfold xml_methods in A. cbn [In] in A.
  repeat (destruct A as [A|A]; [injection A; intros; subst; first [reflexivity|discriminate]|]). destruct A.
Qed.
Lemma all_lone v : everywhere lone v.
Proof.
  apply val_strong. clear v. intros v B t omit name xs W Si E.
  assert (M0 : marshaler t <> MNone -> forall subs, match v with VPtr _ => False | _ => True end -> encode v subs t omit name = Ok xs -> marshal (marshaler t) (fields_of t) v subs name = Ok xs).
  { clear. intros N subs V E. unfold encode in E. destruct v; try contradiction; destruct (marshaler t); try exact E; congruence. }
  assert (M1 : forall subs, marshal (marshaler t) (fields_of t) v subs name = Ok xs -> (forall vs, v = VStruct vs -> subs = map annotate vs) -> match v with VStruct _ => True | _ => False end \/ marshaler t <> MDataset -> length xs <= 1).
  { clear E M0. intros subs E S K. refine (marshal_lone _ _ _ _ _ _ _ E). intros D ref data ys Q Ey. destruct K as [K|K]; [|contradiction]. destruct v as [| | | | | |vs]; try contradiction.
    pose proof (dataset_only t D) as ->. destruct (wt_struct (TRef "MLDatasetChoice") _ _ eq_refl W) as (vs' & X & Z). injection X as <-. cbn [below] in B. specialize (S vs eq_refl). rewrite Q in S. clear Q E. opened vs B Z. assert (Sd : data = annotate v0) by (cbn [map] in S; congruence). rewrite Sd in Ey.
    match goal with D : everywhere lone v0, W : wt _ v0 |- _ => exact (everywhere_here _ _ D _ _ _ ys W eq_refl Ey) end. }
  destruct v as [s|z|b|f|[x|]|[l|]|vs]; cbn [annotate nenc] in E.
  5: { cbn [below] in B. cbn [wt] in W. destruct (kind_of t) as [| | | |t'| | |] eqn:K; try contradiction. unfold encode in E. unfold elem_ty in E. rewrite K in E.
       destruct t as [| | | | | | |n]; try discriminate K; [injection K as ->; exact (everywhere_here _ _ B _ _ _ xs W Si E)|]. pose proof (never_pointer n) as R. rewrite K in R. contradiction. }
  5: { injection E as <-. apply le_S, le_n. }
  all: destruct (marshaler t) eqn:M in M0, M1; try (apply (M0 ltac:(discriminate) _ I) in E; apply (M1 _ E); [intros vs' Q; first [discriminate Q|injection Q as <-; reflexivity]|try (left; exact I); right; discriminate]).
  all: try (pose proof (dataset_only t M) as ->; clear - W; cbn [wt] in W; first [discriminate W|contradiction W]).
  all: unfold encode in E; rewrite ?M in E; try (injection E as <-; apply le_n).
  - cbn [wt] in W. destruct (kind_of t) as [| | | | |t'| |] eqn:K; try contradiction. destruct t as [| | | | | | |n]; try discriminate K; [discriminate Si|]. pose proof (refs_plain n M) as R. rewrite K in R. contradiction.
  - injection E as <-. apply le_S, le_n.
  - exact (struct_lone _ _ _ _ E).
Qed.

(** ** The types of elements that the package writes *)
Inductive place :=
| Leaf                                                          (* text only *)
| Of (n : string)                                               (* a named Go type *)
| Path (parents : list string) (name : string) (t : ty)         (* the elements of the tag a>b>c *)
| Special (name : string).                                      (* written by a MarshalXML method *)
(* [g_turns] are the orders in which the elements may be, with those that there may be several
   of marked; none if they may be in any order. *)
Record gtype := mkO { g_attrs : list string; g_kids : list (string * place); g_text : bool; g_turns : list (list (string * bool)) }.
(* several of each, or one of each *)
Definition mkG (attrs : list string) (kids : list (string * place)) (text : bool) : gtype := mkO attrs kids text [map (fun k => (fst k, true)) kids].
Definition mk1 (attrs : list string) (kids : list (string * place)) (text : bool) : gtype := mkO attrs kids text [map (fun k => (fst k, false)) kids].

Fixpoint base (t : ty) : ty := match t with TPtr t' | TSlice t' => base t' | _ => t end.
Definition place_of (t : ty) : place :=
  match t with
  | TRef n => match marshaler t, kind_of t with MNone, KStruct _ => Of n | MNone, _ | MSpecVersion, _ => Leaf | _, _ => Of n end
  | _ => Leaf
  end.
Definition called (t : ty) (name : string) : string :=
  match marshaler t with
  | MData => "dataflow"
  | MNone => match xml_name (fields_of t) with Some n => n | None => name end
  | _ => name
  end.
Definition kid (name : string) (t : ty) : string * place := (called (base t) name, place_of (base t)).
Definition field_attrs (f : field) : list string := match xml_info f with Some (mkX XAttribute _ name _) => [name] | _ => [] end.
Definition field_kids (f : field) : list (string * place) :=
  match xml_info f with
  | Some (mkX XElement [] name _) => [kid name (f_ty f)]
  | Some (mkX XElement (p :: ps) name _) => [(p, Path ps name (f_ty f))]
  | _ => []
  end.
Definition field_text (f : field) : bool := match xml_info f with Some (mkX XCharData _ _ _) => true | _ => false end.
Definition field_turns (f : field) : list (string * bool) :=
  match xml_info f with
  | Some (mkX XElement [] name _) => [(fst (kid name (f_ty f)), negb (single (f_ty f)))]
  | Some (mkX XElement (p :: ps) name _) => [(p, false)]
  | _ => []
  end.
Definition struct_type (fs : list field) : gtype := mkO (flat_map field_attrs fs) (flat_map field_kids fs) (existsb field_text fs) [flat_map field_turns fs].
Definition both (a b : gtype) : gtype := mkO (g_attrs a ++ g_attrs b) (g_kids a ++ g_kids b) (g_text a || g_text b)%bool (g_turns a ++ g_turns b).
Definition leaf : gtype := mkG [] [] true.
Definition only (kids : list (string * place)) : gtype := mkG [] kids false.
Definition only1 (kids : list (string * place)) : gtype := mk1 [] kids false.
Definition mixed (kids : list (string * place)) : gtype := mkO [] kids false [].

Definition method_type (m : method) (fs : list field) : gtype :=
  match m with
  | MNone | MLicense => struct_type fs
  | MRef => mkG ["ref"] [] false
  | MCopyright | MSpecVersion => leaf
  | MDependency => mkG ["ref"] [("dependency", Of "BOMReference"); ("provides", Of "BOMReference")] false
  | MEnvironment => mixed [("environmentVar", Of "Property"); ("value", Leaf)]
  | MLicenses => mixed [("license", Of "License"); ("expression", Special "expression"); ("expression-detailed", Special "expression-detailed")]
  | MDataset => both (struct_type fields_mlDatasetChoiceRefXML) (struct_type fields_ComponentData)
  | MState => both (struct_type fields_predefinedCertificateStateXML) (struct_type fields_customCertificateStateXML)
  | MExtension => both (struct_type fields_commonCertificateExtensionXML) (struct_type fields_customCertificateExtensionXML)
  | MAsserter => only1 [("organization", Of "OrganizationalEntity"); ("contact", Of "OrganizationalContact"); ("ref", Of "BOMReference")]
  | MIKEv2 => both leaf (struct_type fs)
  | MTools => struct_type fields_toolsChoiceMarshalXML
  | MEvidence => mkO [] (("identity", Of "EvidenceIdentity") :: g_kids (struct_type (tl fields_EvidenceMarshalXML))) false [("identity", true) :: flat_map field_turns (tl fields_EvidenceMarshalXML)]
  | MData => mk1 ["name"; "description"] [("classification", Special "classification"); ("governance", Of "DataGovernance"); ("source", Special "urls"); ("destination", Special "urls")] false
  | MDefinitions => only1 [("standards", Special "standards"); ("patents", Special "patents")]
  end.
Definition specials : list (string * gtype) :=
  [ ("expression", mkG ["acknowledgement"; "bom-ref"] [] true);
    ("expression-detailed", mkG ["expression"; "acknowledgement"; "bom-ref"] [("details", Special "details")] false);
    ("details", struct_type fields_licenseExpressionDetailXML);
    ("classification", mkG ["flow"] [] true);
    ("urls", only [("url", Leaf)]);
    ("standards", only [("standard", Of "StandardDefinition")]);
    ("patents", mixed [("patent", Of "Patent"); ("patentFamily", Of "PatentFamily")]) ].
Definition look (p : place) : gtype :=
  match p with
  | Leaf => leaf
  | Of n => method_type (marshaler (TRef n)) (fields_of (TRef n))
  | Path [] name t => mkO [] [kid name t] false [[(fst (kid name t), negb (single t))]]
  | Path (q :: ps) name t => only1 [(q, Path ps name t)]
  | Special n => match assoc n specials with Some g => g | None => leaf end
  end.

(** ** Comparing with a schema *)
Section Compare.
  Variable d : xsd.
  (* the pairs of Go types and types of the schema that are met *)
  Variable R : list (string * string).
  Definition listed (n s : string) : bool := existsb (fun p => (String.eqb (fst p) n && String.eqb (snd p) s)%bool) R.
  Definition has (k : string) (l : list string) : bool := existsb (String.eqb k) l.
  Definition matches (sub : place -> string -> bool) (g : gtype) (s : string) : bool :=
    if String.eqb s "*" then true else
    match assoc s d with
    | None => false
    | Some T => (forallb (fun k => String.eqb k "xmlns" || has k (t_attrs T)) (g_attrs g) && (negb (g_text g) || t_text T)
                 && forallb (fun k => match assoc (fst k) (t_kids T) with Some s' => sub (snd k) s' | None => false end) (g_kids g))%bool
    end.
  Fixpoint fits (fuel : nat) (p : place) (s : string) : bool :=
    match fuel with
    | O => false
    | S fuel' => match p with Of n => (String.eqb s "*" || listed n s)%bool | _ => matches (fits fuel') (look p) s end
    end.
  Definition deep : nat := 5.
  Definition closed : bool := forallb (fun p => matches (fits deep) (look (Of (fst p))) (snd p)) R.
End Compare.

(** The pairs that are met below a pair. *)
Section Gather.
  Variable d : xsd.
  Fixpoint pairs (fuel : nat) (p : place) (s : string) : list (string * string) :=
    match fuel with
    | O => []
    | S fuel' => match assoc s d with
                 | None => []
                 | Some T => flat_map (fun k => match assoc (fst k) (t_kids T) with
                                                | Some s' => match snd k with Of n => if String.eqb s' "*" then [] else [(n, s')] | p' => pairs fuel' p' s' end
                                                | None => []
                                                end) (g_kids (look p))
                 end
    end.
  Fixpoint gather (fuel : nat) (todo done : list (string * string)) : list (string * string) :=
    match fuel with
    | O => done
    | S fuel' => match todo with
                 | [] => done
                 | (n, s) :: todo' => if listed done n s then gather fuel' todo' done else gather fuel' (pairs deep (Of n) s ++ todo')%list ((n, s) :: done)
                 end
    end.
  Definition met : list (string * string) := gather (N.to_nat 5000) [("BOM", "bom")] [].
  Definition covers : bool := let R := met in (listed R "BOM" "bom" && closed d R)%bool.
End Gather.

(** ** What is written has these types *)
Inductive ordered : list (string * bool) -> list string -> Prop :=
| ordered_nil l : ordered l []
| ordered_many k l ns : ordered ((k, true) :: l) ns -> ordered ((k, true) :: l) (k :: ns)
| ordered_here k b l ns : ordered l ns -> ordered ((k, b) :: l) (k :: ns)
| ordered_skip k l ns : ordered l ns -> ordered (k :: l) ns.
Definition names (xs : list xml) : list string := flat_map (fun x => match x with XElem _ l _ _ => [l] | XText _ => [] end) xs.
Definition turn (g : gtype) (xs : list xml) : Prop := g_turns g = [] \/ exists l, In l (g_turns g) /\ ordered l (names xs).
Lemma names_app a b : names (a ++ b) = (names a ++ names b)%list.
Proof. apply flat_map_app. Qed.
Lemma ordered_later l' : forall l ns, ordered l ns -> ordered (l' ++ l) ns.
Proof. induction l' as [|k l' IH]; intros l ns O; [exact O|]. apply ordered_skip, IH, O. Qed.
Lemma ordered_app : forall l ns, ordered l ns -> forall l' ns', ordered l' ns' -> ordered (l ++ l') (ns ++ ns').
Proof.
  induction 1 as [l|k l ns O IH|k b l ns O IH|k l ns O IH]; intros l' ns' O'; [apply ordered_later, O'|apply ordered_many, IH, O'|apply ordered_here, IH, O'|apply ordered_skip, IH, O'].
Qed.
Lemma ordered_one k b ns : Forall (eq k) ns -> (b = false -> length ns <= 1) -> ordered [(k, b)] ns.
Proof.
  intros F L. destruct b.
  - clear L. induction F as [|n ns <- F IH]; [apply ordered_nil|apply ordered_many, IH].
  - specialize (L eq_refl). destruct ns as [|n [|m ns]]; [apply ordered_nil| |apply le_S_n in L; inversion L]. inversion F; subst. apply ordered_here, ordered_nil.
Qed.
Lemma ordered_among l k b ns : In (k, b) l -> Forall (eq k) ns -> (b = false -> length ns <= 1) -> ordered l ns.
Proof. intros H F L. apply in_split in H as (a & c & ->). apply ordered_later. replace ns with (ns ++ [])%list by apply app_nil_r. exact (ordered_app [(k, b)] ns (ordered_one k b ns F L) c [] (ordered_nil c)). Qed.
Lemma turn_none g xs : names xs = [] -> turn g xs.
Proof. intros N. destruct (g_turns g) as [|l ls] eqn:T; [left; exact T|right]. exists l. rewrite T, N. split; [left; reflexivity|apply ordered_nil]. Qed.
Lemma turn_text g s : turn g (text s).
Proof. apply turn_none. unfold text. destruct (String.eqb s ""); reflexivity. Qed.
Lemma turn_nil g : turn g [].
Proof. apply turn_none. reflexivity. Qed.
Lemma turn_seq g l xs : In l (g_turns g) -> ordered l (names xs) -> turn g xs.
Proof. intros H O. right. exists l. split; assumption. Qed.
Inductive writes : place -> list (string * string) -> list xml -> Prop :=
| writes_element p a ks :
    (forall kv, In kv a -> In (fst kv) (g_attrs (look p))) ->
    (forall s, In (XText s) ks -> g_text (look p) = true) ->
    (forall sp l a' ks', In (XElem sp l a' ks') ks -> exists p', In (l, p') (g_kids (look p)) /\ writes p' a' ks') ->
    turn (look p) ks ->
    writes p a ks.
Definition item (g : gtype) (x : xml) : Prop :=
  match x with XText _ => g_text g = true | XElem _ l a ks => exists p, In (l, p) (g_kids g) /\ writes p a ks end.
Definition inside (g : gtype) (a : list (string * string)) (ks : list xml) : Prop := Forall (fun kv => In (fst kv) (g_attrs g)) a /\ Forall (item g) ks.
Lemma inside_writes p a ks : turn (look p) ks -> inside (look p) a ks -> writes p a ks.
Proof.
  intros T (A & K). rewrite Forall_forall in A, K. constructor; [exact A|intros s H; exact (K _ H)|intros sp l a' ks' H; exact (K _ H)|exact T].
Qed.
Definition sub (g g' : gtype) : Prop := incl (g_attrs g) (g_attrs g') /\ incl (g_kids g) (g_kids g') /\ (g_text g = true -> g_text g' = true).
Lemma turn_left a b xs : g_turns a <> [] -> turn a xs -> turn (both a b) xs.
Proof. intros N [T|(l & H & O)]; [contradiction|right]. exists l. split; [apply in_or_app; left; exact H|exact O]. Qed.
Lemma turn_right a b xs : g_turns b <> [] -> turn b xs -> turn (both a b) xs.
Proof. intros N [T|(l & H & O)]; [contradiction|right]. exists l. split; [apply in_or_app; right; exact H|exact O]. Qed.
Lemma sub_refl g : sub g g.
Proof. split; [apply incl_refl|]. split; [apply incl_refl|auto]. Qed.
Lemma sub_left a b : sub a (both a b).
Proof. split; [apply incl_appl, incl_refl|]. split; [apply incl_appl, incl_refl|]. cbn. intros ->. reflexivity. Qed.
Lemma sub_right a b : sub b (both a b).
Proof. split; [apply incl_appr, incl_refl|]. split; [apply incl_appr, incl_refl|]. cbn. intros ->. apply Bool.orb_true_r. Qed.
Lemma item_sub g g' x : sub g g' -> item g x -> item g' x.
Proof. intros (_ & K & T). destruct x as [s|sp l a ks]; cbn; [exact T|]. intros (p & H & W). exists p. split; [apply K, H|exact W]. Qed.
Lemma inside_sub g g' a ks : sub g g' -> inside g a ks -> inside g' a ks.
Proof.
  intros S (A & K). split; [refine (Forall_impl _ _ A); intros kv H; apply S, H|refine (Forall_impl _ _ K); intros x; apply item_sub, S].
Qed.

(** An element with the name and type of [k] *)
Definition is_kid (k : string * place) (x : xml) : Prop := exists a ks, x = XElem "" (fst k) a ks /\ writes (snd k) a ks.
Lemma kid_item g k x : In k (g_kids g) -> is_kid k x -> item g x.
Proof. intros H (a & ks & -> & W). destruct k as (l, p). exists p. split; assumption. Qed.
Lemma kids_items g k xs : In k (g_kids g) -> Forall (is_kid k) xs -> Forall (item g) xs.
Proof. intros H. apply Forall_impl. intros x. apply kid_item, H. Qed.
Lemma kid_names k xs : Forall (is_kid k) xs -> Forall (eq (fst k)) (names xs).
Proof. induction 1 as [|x xs (a & ks & -> & W) F IH]; [constructor|]. constructor; [reflexivity|exact IH]. Qed.
Lemma kid_count k xs : Forall (is_kid k) xs -> length (names xs) = length xs.
Proof. induction 1 as [|x xs (a & ks & -> & W) F IH]; [reflexivity|]. cbn. f_equal. exact IH. Qed.
Lemma ordered_kids k b xs : Forall (is_kid k) xs -> (b = false -> length xs <= 1) -> ordered [(fst k, b)] (names xs).
Proof. intros F L. apply ordered_one; [apply kid_names, F|]. rewrite (kid_count k xs F). exact L. Qed.
Lemma kids_turn g l k b xs : In l (g_turns g) -> In (fst k, b) l -> Forall (is_kid k) xs -> (b = false -> length xs <= 1) -> turn g xs.
Proof. intros T H F L. apply (turn_seq g l); [exact T|]. apply (ordered_among _ (fst k) b); [exact H|apply kid_names, F|]. rewrite (kid_count k xs F). exact L. Qed.
Definition sound (v : val) : Prop := forall t omit name xs, wt t v -> nenc (annotate v) t omit name = Ok xs -> Forall (is_kid (kid name t)) xs.

Lemma text_items g s : g_text g = true -> Forall (item g) (text s).
Proof. intros T. unfold text. destruct (String.eqb s ""); repeat constructor. exact T. Qed.
Lemma path_writes ps name t ks : Forall (is_kid (kid name t)) ks -> (single t = true -> length ks <= 1) -> writes (Path ps name t) [] (wrap ps ks).
Proof.
  intros K L. induction ps as [|q ps IH]; apply inside_writes.
  - refine (kids_turn (look (Path [] name t)) _ (kid name t) (negb (single t)) ks (or_introl eq_refl) (or_introl eq_refl) K _). intros Q. apply L, Bool.negb_false_iff, Q.
  - split; [constructor|]. refine (kids_items _ (kid name t) ks _ K). left. reflexivity.
  - refine (turn_seq (look (Path (q :: ps) name t)) _ _ (or_introl eq_refl) _). apply ordered_here, ordered_nil.
  - split; [constructor|]. constructor; [|constructor]. exists (Path ps name t). split; [left; reflexivity|exact IH].
Qed.
Lemma checked_lone v t omit name xs : wt t v -> enc_checked (annotate v) t omit name = Ok xs -> single t = true -> length xs <= 1.
Proof.
  intros W E Si. unfold enc_checked in E. destruct (omit && empty_value (nval (annotate v)))%bool; [injection E as <-; apply le_S, le_n|]. exact (everywhere_here _ _ (all_lone v) t omit name xs W Si E).
Qed.
Lemma checked_sound v t omit name xs : sound v -> wt t v -> enc_checked (annotate v) t omit name = Ok xs -> Forall (is_kid (kid name t)) xs.
Proof. intros S W. unfold enc_checked. destruct (omit && empty_value (nval (annotate v)))%bool; [intros E; injection E as <-; constructor|apply S, W]. Qed.
Lemma field_sound f v xs g : sound v -> wt (f_ty f) v -> enc_field f (annotate v) = Ok xs -> incl (field_kids f) (g_kids g) -> (field_text f = true -> g_text g = true) -> Forall (item g) xs.
Proof.
  intros S W E K T. unfold enc_field in E. unfold field_kids in K. unfold field_text in T. destruct (xml_info f) as [[[] parents name omit]|]; try (injection E as <-; constructor).
  - injection E as <-. apply text_items, T. reflexivity.
  - assert (F : forall xs, bind (enc_checked (annotate v) (f_ty f) omit name) (fun ks => Ok (wrap parents ks)) = Ok xs -> Forall (item g) xs).
    { clear E xs. intros xs E. destruct (enc_checked (annotate v) (f_ty f) omit name) as [ks|] eqn:C; [|discriminate E]. injection E as <-. pose proof (checked_lone v (f_ty f) omit name ks W C) as L. apply (checked_sound v (f_ty f) omit name ks S W) in C. destruct parents as [|p ps].
      - refine (kids_items g _ ks _ C). apply K. left. reflexivity.
      - constructor; [|constructor]. exists (Path ps name (f_ty f)). split; [apply K; left; reflexivity|apply path_writes; [exact C|exact L]]. }
    destruct (nval (annotate v)) as [| | | |[|]| |]; try (exact (F xs E)). injection E as <-. constructor.
Qed.
Lemma fields_sound g : forall fs vs xs, list_all (everywhere sound) vs -> zip_all (fun f x => wt (f_ty f) x) vs fs -> enc_fields fs (map annotate vs) = Ok xs ->
  incl (flat_map field_kids fs) (g_kids g) -> (existsb field_text fs = true -> g_text g = true) -> Forall (item g) xs.
Proof.
  induction fs as [|f fs IH]; intros [|v vs] xs S W E K T; cbn [zip_all] in W; try contradiction; [injection E as <-; constructor|].
  destruct S as (Sv & Ss), W as (Wv & Ws). cbn [map enc_fields] in E. destruct (enc_field f (annotate v)) as [a|] eqn:Ea; [|discriminate E]. cbn [bind] in E. destruct (enc_fields fs (map annotate vs)) as [b|] eqn:Eb; [|discriminate E]. injection E as <-.
  cbn [flat_map] in K. apply incl_app_inv in K as (Kf & Kfs). cbn [existsb] in T. apply Forall_app. split.
  - refine (field_sound f v a g (everywhere_here _ _ Sv) Wv Ea Kf _). intros H. apply T. rewrite H. reflexivity.
  - refine (IH vs b Ss Ws Eb Kfs _). intros H. apply T. rewrite H. apply Bool.orb_true_r.
Qed.
Lemma field_turn f v xs : sound v -> wt (f_ty f) v -> enc_field f (annotate v) = Ok xs -> ordered (field_turns f) (names xs).
Proof.
  intros S W E. unfold enc_field in E. unfold field_turns. destruct (xml_info f) as [[[] parents name omit]|]; try (injection E as <-; apply ordered_nil).
  - injection E as <-. unfold text. destruct (String.eqb _ ""); apply ordered_nil.
  - assert (F : forall xs, bind (enc_checked (annotate v) (f_ty f) omit name) (fun ks => Ok (wrap parents ks)) = Ok xs -> ordered (match parents with [] => [(fst (kid name (f_ty f)), negb (single (f_ty f)))] | p :: ps => [(p, false)] end) (names xs)).
    { clear E xs. intros xs E. destruct (enc_checked (annotate v) (f_ty f) omit name) as [ks|] eqn:C; [|discriminate E]. injection E as <-. pose proof (checked_lone v (f_ty f) omit name ks W C) as L. apply (checked_sound v (f_ty f) omit name ks S W) in C. destruct parents as [|p ps].
      - apply (ordered_kids (kid name (f_ty f)) _ _ C). intros Q. apply L, Bool.negb_false_iff, Q.
      - apply ordered_here, ordered_nil. }
    destruct (nval (annotate v)) as [| | | |[|]| |]; try (exact (F xs E)). injection E as <-. apply ordered_nil.
Qed.
Lemma fields_turn : forall fs vs xs, list_all (everywhere sound) vs -> zip_all (fun f x => wt (f_ty f) x) vs fs -> enc_fields fs (map annotate vs) = Ok xs -> ordered (flat_map field_turns fs) (names xs).
Proof.
  induction fs as [|f fs IH]; intros [|v vs] xs S W E; cbn [zip_all] in W; try contradiction; [injection E as <-; apply ordered_nil|].
  destruct S as (Sv & Ss), W as (Wv & Ws). cbn [map enc_fields] in E. destruct (enc_field f (annotate v)) as [a|] eqn:Ea; [|discriminate E]. cbn [bind] in E. destruct (enc_fields fs (map annotate vs)) as [b|] eqn:Eb; [|discriminate E]. injection E as <-.
  cbn [flat_map]. rewrite names_app. exact (ordered_app _ _ (field_turn f v a (everywhere_here _ _ Sv) Wv Ea) _ _ (IH vs b Ss Ws Eb)).
Qed.
Lemma attrs_known : forall fs ns, Forall (fun kv => In (fst kv) (flat_map field_attrs fs)) (enc_attrs fs ns).
Proof.
  induction fs as [|f fs IH]; intros [|n ns]; cbn [enc_attrs]; try constructor. apply Forall_app. split.
  - unfold enc_attr. cbn [flat_map]. unfold field_attrs at 1. destruct (xml_info f) as [[[] ps name omit]|]; try constructor. destruct (omit && empty_value (nval n))%bool; [constructor|]. destruct (nval n) as [| | | |[|]| |]; repeat constructor.
  - refine (Forall_impl _ _ (IH ns)). intros kv H. cbn [flat_map]. apply in_or_app. right. exact H.
Qed.
Lemma struct_sound fs vs name xs : list_all (everywhere sound) vs -> zip_all (fun f x => wt (f_ty f) x) vs fs -> enc_struct fs (map annotate vs) name = Ok xs ->
  exists a ks, xs = [XElem "" (match xml_name fs with Some n => n | None => name end) a ks] /\ turn (struct_type fs) ks /\ inside (struct_type fs) a ks.
Proof.
  intros S W E. unfold enc_struct in E. destruct (enc_fields fs (map annotate vs)) as [ks|] eqn:K; [|discriminate E]. injection E as <-. do 2 eexists. split; [reflexivity|]. split; [exact (turn_seq (struct_type fs) _ _ (or_introl eq_refl) (fields_turn fs vs ks S W K))|]. split; [apply attrs_known|].
  apply (fields_sound (struct_type fs) fs vs ks S W K (incl_refl _)). auto.
Qed.
Lemma concat_sound {A} (f : A -> xout) (P : xml -> Prop) : forall l xs, concat_all f l = Ok xs -> (forall x ys, In x l -> f x = Ok ys -> Forall P ys) -> Forall P xs.
Proof.
  induction l as [|x l IH]; intros xs E H; cbn [concat_all] in E; [injection E as <-; constructor|]. destruct (f x) as [a|] eqn:Ea; [|discriminate E]. cbn [bind] in E. destruct (concat_all f l) as [b|]; [|discriminate E]. injection E as <-.
  apply Forall_app. split; [exact (H x a (or_introl eq_refl) Ea)|]. apply (IH b eq_refl). intros y ys Hy. apply H. right. exact Hy.
Qed.

(** ** The methods *)
Definition method_sound (n : string) (m : method) (fs : list field) (vs : list val) : Prop :=
  forall name xs, marshal m fs (VStruct vs) (map annotate vs) name = Ok xs -> Forall (is_kid (called (TRef n) name, Of n)) xs.
Lemma of_kid n name a ks : turn (look (Of n)) ks -> inside (look (Of n)) a ks -> is_kid (name, Of n) (XElem "" name a ks).
Proof. intros T H. exists a, ks. split; [reflexivity|exact (inside_writes (Of n) a ks T H)]. Qed.
Lemma one_kid k x : is_kid k x -> Forall (is_kid k) [x].
Proof. intros H. constructor; [exact H|constructor]. Qed.

Lemma sound_copyright vs : zip_all (fun f x => wt (f_ty f) x) vs fields_Copyright -> method_sound "Copyright" MCopyright fields_Copyright vs.
Proof.
  intros W name xs E. destruct vs as [|a [|]]; try discriminate E. injection E as <-. apply one_kid, of_kid; [apply turn_text|]. split; [constructor|]. apply text_items. reflexivity.
Qed.
Lemma ref_is r : writes (Of "BOMReference") [attr "ref" r] [].
Proof. apply inside_writes; [apply turn_nil|]. split; [repeat constructor|constructor]. Qed.
Lemma sound_dependency vs : method_sound "Dependency" MDependency fields_Dependency vs.
Proof.
  intros name xs E. destruct vs as [|a [|b [|c [|]]]]; try discriminate E. injection E as <-. apply one_kid, of_kid.
  { refine (turn_seq (look (Of "Dependency")) _ _ (or_introl eq_refl) _). rewrite names_app. refine (ordered_app [("dependency", true)] _ _ [("provides", true)] _ _); (apply (ordered_kids (_, Of "BOMReference")); [|discriminate]); apply Forall_map, Forall_forall; intros r _; (do 2 eexists; split; [reflexivity|apply ref_is]). }
  split; [repeat constructor|]. apply Forall_app. split; apply Forall_map, Forall_forall; intros r _.
  - exists (Of "BOMReference"). split; [left; reflexivity|apply ref_is].
  - exists (Of "BOMReference"). split; [right; left; reflexivity|apply ref_is].
Qed.
Lemma sound_license vs : list_all (everywhere sound) vs -> zip_all (fun f x => wt (f_ty f) x) vs fields_License -> method_sound "License" MLicense fields_License vs.
Proof.
  intros S W name xs E. assert (E' : enc_struct fields_License (map annotate vs) name = Ok xs).
  { destruct vs as [|a [|b [|c vs]]]; try discriminate E. cbn [map marshal] in E. destruct (filled (annotate b) && filled (annotate c))%bool; [discriminate E|]. destruct (negb (filled (annotate b) || filled (annotate c))); [discriminate E|exact E]. }
  apply (struct_sound _ _ _ _ S W) in E' as (a & ks & -> & T & I). apply one_kid, of_kid; [exact T|exact I].
Qed.
Lemma sound_ikev2 n fs vs : marshaler (TRef n) = MIKEv2 -> kind_of (TRef n) = KStruct fs -> xml_name fs = None -> list_all (everywhere sound) vs -> zip_all (fun f x => wt (f_ty f) x) vs fs -> method_sound n MIKEv2 fs vs.
Proof.
  intros M K X S W name xs E. unfold called. rewrite M. assert (L : look (Of n) = both leaf (struct_type fs)) by (cbn [look]; unfold fields_of; rewrite M, K; reflexivity).
  destruct vs as [|v vs]; [discriminate E|]. cbn [map marshal] in E. destruct (filled (annotate v)).
  - injection E as <-. apply one_kid, of_kid; rewrite L; [apply turn_text|]. split; [constructor|]. apply text_items. reflexivity.
  - change (annotate v :: map annotate vs) with (map annotate (v :: vs)) in E. apply (struct_sound _ _ _ _ S W) in E as (a & ks & -> & T & I). rewrite X. apply one_kid, of_kid; rewrite L; [apply turn_right; [discriminate|exact T]|]. exact (inside_sub _ _ _ _ (sub_right _ _) I).
Qed.
Lemma sound_dataset vs : list_all (everywhere sound) vs -> zip_all (fun f x => wt (f_ty f) x) vs fields_MLDatasetChoice -> method_sound "MLDatasetChoice" MDataset fields_MLDatasetChoice vs.
Proof.
  intros S W name xs E. opened vs S W. rename v into ref, v0 into data. cbn [map marshal] in E. destruct (filled (annotate ref)).
  - apply (struct_sound fields_mlDatasetChoiceRefXML [ref]) in E as (a & ks & -> & T & I); [|cbn; auto|cbn; auto]. apply one_kid, of_kid; [apply turn_left; [discriminate|exact T]|]. exact (inside_sub _ _ _ _ (sub_left _ _) I).
  - destruct (set (annotate data)); [|injection E as <-; constructor]. match goal with D : everywhere sound data, W : wt _ data |- _ => apply (everywhere_here _ _ D _ _ _ _ W) in E end.
    refine (Forall_impl _ _ E). intros x (a & ks & -> & Wr). apply of_kid; [|inversion Wr as [p a' ks' A T K _]; subst; split; apply Forall_forall]; [inversion Wr as [p a' ks' A T K Tn]; subst; apply turn_right; [discriminate|exact Tn]|..].
    + intros kv Hk. apply (sub_right (struct_type fields_mlDatasetChoiceRefXML) (struct_type fields_ComponentData)). exact (A kv Hk).
    + intros x Hx. apply (item_sub (struct_type fields_ComponentData)); [apply sub_right|]. destruct x as [s|sp l a' ks']; [exact (T s Hx)|exact (K sp l a' ks' Hx)].
Qed.
Lemma behind t fs v : kind_of t = KStruct fs -> wt (TPtr t) v -> nonnil v = true -> everywhere sound v ->
  exists vs, v = VPtr (Some (VStruct vs)) /\ pointee (annotate v) = map annotate vs /\ zip_all (fun f x => wt (f_ty f) x) vs fs /\ list_all (everywhere sound) vs.
Proof.
  intros K W N E. destruct (ptr_case _ _ W) as [->|(y & -> & Wy)]; [discriminate|]. destruct (wt_struct _ _ _ K Wy) as (vs & -> & Z).
  exists vs. split; [reflexivity|]. split; [reflexivity|]. split; [exact Z|]. apply everywhere_below in E. cbn [below] in E. apply everywhere_below in E. exact E.
Qed.
Lemma behind_written t fs fs' v name xs : kind_of t = KStruct fs -> map f_ty fs = map f_ty fs' -> wt (TPtr t) v -> set (annotate v) = true -> everywhere sound v -> enc_struct fs' (pointee (annotate v)) name = Ok xs ->
  exists a ks, xs = [XElem "" (match xml_name fs' with Some n => n | None => name end) a ks] /\ turn (struct_type fs') ks /\ inside (struct_type fs') a ks.
Proof.
  intros K T W N S E. rewrite set_annotate in N. destruct (behind t fs v K W N S) as (vs & -> & P & Z & Ss). rewrite P in E. exact (struct_sound fs' vs name xs Ss (same_types _ _ T vs Z) E).
Qed.
Lemma sound_state vs : list_all (everywhere sound) vs -> zip_all (fun f x => wt (f_ty f) x) vs fields_CertificateState -> method_sound "CertificateState" MState fields_CertificateState vs.
Proof.
  intros S W name xs E. opened vs S W. rename v into a, v0 into b. cbn [map marshal] in E. destruct (set (annotate a) && set (annotate b))%bool; [discriminate E|]. destruct (set (annotate a)) eqn:Na; [|destruct (set (annotate b)) eqn:Nb; [|injection E as <-; constructor]].
  - apply (behind_written (TRef "PredefinedCertificateState") fields_PredefinedCertificateState) in E as (at_ & ks & -> & T & I); [|reflexivity|reflexivity|assumption..]. apply one_kid, of_kid; [apply turn_left; [discriminate|exact T]|]. exact (inside_sub _ _ _ _ (sub_left _ _) I).
  - apply (behind_written (TRef "CustomCertificateState") fields_CustomCertificateState) in E as (at_ & ks & -> & T & I); [|reflexivity|reflexivity|assumption..]. apply one_kid, of_kid; [apply turn_right; [discriminate|exact T]|]. exact (inside_sub _ _ _ _ (sub_right _ _) I).
Qed.
Lemma sound_extension vs : list_all (everywhere sound) vs -> zip_all (fun f x => wt (f_ty f) x) vs fields_CertificateExtension -> method_sound "CertificateExtension" MExtension fields_CertificateExtension vs.
Proof.
  intros S W name xs E. opened vs S W. rename v into a, v0 into b. cbn [map marshal] in E. destruct (set (annotate a) && set (annotate b))%bool; [discriminate E|]. destruct (set (annotate a)) eqn:Na; [|destruct (set (annotate b)) eqn:Nb; [|injection E as <-; constructor]].
  - apply (behind_written (TRef "CommonCertificateExtension") fields_CommonCertificateExtension) in E as (at_ & ks & -> & T & I); [|reflexivity|reflexivity|assumption..]. apply one_kid, of_kid; [apply turn_left; [discriminate|exact T]|]. exact (inside_sub _ _ _ _ (sub_left _ _) I).
  - apply (behind_written (TRef "CustomCertificateExtension") fields_CustomCertificateExtension) in E as (at_ & ks & -> & T & I); [|reflexivity|reflexivity|assumption..]. apply one_kid, of_kid; [apply turn_right; [discriminate|exact T]|]. exact (inside_sub _ _ _ _ (sub_right _ _) I).
Qed.
Lemma within_kid n name k r xs : within name r = Ok xs -> (forall ys, r = Ok ys -> Forall (is_kid k) ys) -> (forall ys, r = Ok ys -> length ys <= 1) -> (exists l, In l (g_turns (look (Of n))) /\ In (fst k, false) l) -> In k (g_kids (look (Of n))) -> Forall (is_kid (name, Of n)) xs.
Proof.
  intros E H L (l & Tl & Tk) K. unfold within in E. destruct r as [ks|] eqn:R; [|discriminate E]. injection E as <-. apply one_kid, of_kid; [exact (kids_turn _ l k false ks Tl Tk (H ks eq_refl) (fun _ => L ks eq_refl))|]. split; [constructor|]. exact (kids_items _ k ks K (H ks eq_refl)).
Qed.
Ltac part := match goal with D : everywhere sound ?x, W : wt _ ?x |- forall ys, nenc (annotate ?x) _ _ _ = Ok ys -> _ => intros ys; exact (everywhere_here _ _ D _ _ _ ys W) end.
Ltac single_part := match goal with W : wt _ ?x |- forall ys, nenc (annotate ?x) _ _ _ = Ok ys -> _ => intros ys; exact (everywhere_here _ _ (all_lone x) _ _ _ ys W eq_refl) end.
Lemma sound_asserter vs : list_all (everywhere sound) vs -> zip_all (fun f x => wt (f_ty f) x) vs fields_AsserterChoice -> method_sound "AsserterChoice" MAsserter fields_AsserterChoice vs.
Proof.
  intros S W name xs E. opened vs S W. rename v into a, v0 into b, v1 into c. cbn [map marshal] in E. destruct (set (annotate a) && set (annotate b))%bool; [discriminate E|].
  destruct (set (annotate a)); [|destruct (set (annotate b)); [|destruct (set (annotate c)); [|injection E as <-; constructor]]].
  - refine (within_kid _ _ ("organization", Of "OrganizationalEntity") _ _ E _ _ _ _); [part|single_part|eexists; split; [left; reflexivity|cbn; auto]|left; reflexivity].
  - refine (within_kid _ _ ("contact", Of "OrganizationalContact") _ _ E _ _ _ _); [part|single_part|eexists; split; [left; reflexivity|cbn; auto]|right; left; reflexivity].
  - refine (within_kid _ _ ("ref", Of "BOMReference") _ _ E _ _ _ _); [part|single_part|eexists; split; [left; reflexivity|cbn; auto]|right; right; left; reflexivity].
Qed.
Lemma nil_sound : everywhere sound (VPtr None).
Proof. apply everywhere_intro; [|exact I]. intros t omit name xs _ E. injection E as <-. constructor. Qed.
Lemma sound_tools vs : list_all (everywhere sound) vs -> zip_all (fun f x => wt (f_ty f) x) vs fields_ToolsChoice -> method_sound "ToolsChoice" MTools fields_ToolsChoice vs.
Proof.
  intros S W name xs E. opened vs S W. rename v into a, v0 into b, v1 into c. cbn [map marshal] in E. destruct (set (annotate a) && (set (annotate b) || set (annotate c)))%bool; [discriminate E|].
  pose proof nil_sound as N. destruct (set (annotate a)); [|destruct (set (annotate b) || set (annotate c))%bool; [|injection E as <-; constructor]].
  - apply (struct_sound fields_toolsChoiceMarshalXML [a; VPtr None; VPtr None]) in E as (at_ & ks & -> & T & I); [|cbn [list_all]; auto|cbn; auto]. apply one_kid, of_kid; [exact T|exact I].
  - apply (struct_sound fields_toolsChoiceMarshalXML [VPtr None; b; c]) in E as (at_ & ks & -> & T & I); [|cbn [list_all]; auto|cbn; auto]. apply one_kid, of_kid; [exact T|exact I].
Qed.
Lemma sound_evidence vs : list_all (everywhere sound) vs -> zip_all (fun f x => wt (f_ty f) x) vs fields_Evidence -> method_sound "Evidence" MEvidence fields_Evidence vs.
Proof.
  intros S W name xs E. opened vs S W. rename v into identity, v0 into occ, v1 into stack, v2 into lics, v3 into copy. cbn [map marshal] in E. destruct (_ || _)%bool; [|injection E as <-; constructor].
  match type of E with bind ?r _ = Ok _ => destruct r as [ids|] eqn:Ei; [cbn [bind] in E|discriminate E] end. match type of E with bind ?r _ = Ok _ => destruct r as [ks|] eqn:Ek; [cbn [bind] in E|discriminate E] end. injection E as <-.
  assert (F : Forall (is_kid ("identity", Of "EvidenceIdentity")) ids).
  { match goal with W : wt _ identity |- _ => destruct (ptr_case _ _ W) as [->|(y & -> & Wy)] end; [injection Ei as <-; constructor|].
    destruct (wt_struct (TRef "EvidenceIdentityChoice") _ _ eq_refl Wy) as (vs & -> & Z). match goal with D : everywhere sound (VPtr (Some (VStruct vs))) |- _ => apply everywhere_below in D; cbn [below] in D; apply everywhere_below in D; cbn [below] in D; rename D into Bi end.
    opened vs Bi Z. rename v into one, v0 into many. change (pointee (annotate (VPtr (Some (VStruct [one; many]))))) with [annotate one; annotate many] in Ei. cbv iota beta in Ei.
    destruct (set (annotate many)); [|destruct (set (annotate one)); [|injection Ei as <-; constructor]].
    - match goal with D : everywhere sound many, W : wt _ many |- _ => exact (everywhere_here _ _ D _ _ _ ids W Ei) end.
    - match goal with D : everywhere sound one, W : wt _ one |- _ => exact (everywhere_here _ _ D _ _ _ ids W Ei) end. }
  apply one_kid, of_kid.
  { refine (turn_seq (look (Of "Evidence")) _ _ (or_introl eq_refl) _). rewrite names_app. refine (ordered_app [("identity", true)] _ _ (flat_map field_turns (tl fields_EvidenceMarshalXML)) _ _); [apply (ordered_kids _ true _ F); discriminate|].
    apply (fields_turn (tl fields_EvidenceMarshalXML) [occ; stack; lics; copy] ks); [cbn; auto|cbn; auto|exact Ek]. }
  split; [constructor|]. apply Forall_app. split.
  - refine (kids_items _ _ ids _ F). left. reflexivity.
  - apply (fields_sound (look (Of "Evidence")) (tl fields_EvidenceMarshalXML) [occ; stack; lics; copy] ks); [cbn; auto|cbn; auto|exact Ek|intros k Hk; right; exact Hk|discriminate].
Qed.
Lemma attr_if_known (l : list string) name s : In name l -> Forall (fun kv : string * string => In (fst kv) l) (attr_if name s).
Proof. intros H. unfold attr_if. destruct (String.eqb s ""); repeat constructor. exact H. Qed.
Lemma sound_data vs : list_all (everywhere sound) vs -> zip_all (fun f x => wt (f_ty f) x) vs fields_DataClassification -> method_sound "DataClassification" MData fields_DataClassification vs.
Proof.
  intros S W name xs E. opened vs S W. cbn [map marshal] in E. match type of E with bind ?r _ = Ok _ => destruct r as [gov|] eqn:Eg; [cbn [bind] in E|discriminate E] end. injection E as <-.
  apply one_kid. change (is_kid ("dataflow", Of "DataClassification") (XElem "" "dataflow" (attr_if "name" (nstr (annotate v1)) ++ attr_if "description" (nstr (annotate v2)))
    ((if (filled (annotate v0) || filled (annotate v))%bool then [elem "classification" (attr_if "flow" (nstr (annotate v))) (text (nstr (annotate v0)))] else [])
     ++ gov ++ (match strings (nval (annotate v4)) with [] => [] | l => [elem "source" [] (map (text_elem "url") l)] end) ++ (match strings (nval (annotate v5)) with [] => [] | l => [elem "destination" [] (map (text_elem "url") l)] end)))).
  apply of_kid; [|split].
  - refine (turn_seq (look (Of "DataClassification")) _ _ (or_introl eq_refl) _). rewrite !names_app. refine (ordered_app [("classification", false)] _ _ [("governance", false); ("source", false); ("destination", false)] _ (ordered_app [("governance", false)] _ _ [("source", false); ("destination", false)] _ (ordered_app [("source", false)] _ _ [("destination", false)] _ _))).
    + destruct (filled (annotate v0) || filled (annotate v))%bool; [apply ordered_here, ordered_nil|apply ordered_nil].
    + destruct (set (annotate v3)); [|injection Eg as <-; apply ordered_nil]. assert (L : length gov <= 1) by (match goal with W : wt _ v3 |- _ => exact (everywhere_here _ _ (all_lone v3) _ _ _ gov W eq_refl Eg) end). match goal with D : everywhere sound v3, W : wt _ v3 |- _ => apply (everywhere_here _ _ D _ _ _ gov W) in Eg end. exact (ordered_kids _ false _ Eg (fun _ => L)).
    + destruct (strings (nval (annotate v4))); [apply ordered_nil|apply ordered_here, ordered_nil].
    + destruct (strings (nval (annotate v5))); [apply ordered_nil|apply ordered_here, ordered_nil].
  - apply Forall_app. split; apply attr_if_known; [left; reflexivity|right; left; reflexivity].
  - assert (U : forall place n, In (place, Special "urls") (g_kids (look (Of "DataClassification"))) -> Forall (item (look (Of "DataClassification"))) (match strings (nval n) with [] => [] | l => [elem place [] (map (text_elem "url") l)] end)).
    { intros place n Hp. destruct (strings (nval n)) as [|u l]; constructor; [|constructor]. exists (Special "urls"). split; [exact Hp|].
      assert (L : Forall (is_kid ("url", Leaf)) (map (text_elem "url") (u :: l))).
      { apply Forall_map, Forall_forall. intros x _. do 2 eexists. split; [reflexivity|]. apply inside_writes; [apply turn_text|]. split; [constructor|]. apply text_items. reflexivity. }
      apply inside_writes; [exact (kids_turn (look (Special "urls")) _ _ true _ (or_introl eq_refl) (or_introl eq_refl) L (fun Q => match Bool.diff_true_false Q with end))|]. split; [constructor|]. exact (kids_items (look (Special "urls")) _ _ (or_introl eq_refl) L). }
    apply Forall_app. split; [|apply Forall_app; split; [|apply Forall_app; split; apply U; cbn; auto 6]].
    + destruct (filled (annotate v0) || filled (annotate v))%bool; constructor; [|constructor]. exists (Special "classification"). split; [left; reflexivity|]. apply inside_writes; [apply turn_text|]. split; [apply attr_if_known; left; reflexivity|apply text_items; reflexivity].
    + destruct (set (annotate v3)); [|injection Eg as <-; constructor]. match goal with D : everywhere sound v3, W : wt _ v3 |- _ => apply (everywhere_here _ _ D _ _ _ gov W) in Eg end. refine (kids_items _ _ gov _ Eg). right. left. reflexivity.
Qed.
Lemma listed_values t v : wt (TPtr (TSlice t)) v -> everywhere sound v -> exists l, pointee (annotate v) = map annotate l /\ Forall (wt t) l /\ Forall (everywhere sound) l.
Proof.
  intros W E. destruct (ptr_case _ _ W) as [->|(y & -> & Wy)]; [exists []; repeat split; constructor|]. destruct (slice_case _ _ Wy) as [->|(l & -> & Wl)]; [exists []; repeat split; constructor|].
  apply everywhere_below in E. cbn [below] in E. apply everywhere_below in E. cbn [below] in E. apply list_all_Forall in E. exists l. split; [reflexivity|]. split; assumption.
Qed.
Lemma patent_items x ys : everywhere sound x -> wt (TRef "PatentChoice") x -> enc_patent (annotate x) = Ok ys -> Forall (item (look (Special "patents"))) ys.
Proof.
  intros D W E. destruct (wt_struct (TRef "PatentChoice") _ _ eq_refl W) as (vs & -> & Z). apply everywhere_below in D. cbn [below] in D. opened vs D Z. rename v into a, v0 into b. unfold enc_patent in E.
  change (nsubs (annotate (VStruct [a; b]))) with [annotate a; annotate b] in E. cbv iota beta in E. destruct (set (annotate a)); [|destruct (set (annotate b)); [|injection E as <-; constructor]].
  - match goal with D : everywhere sound a, W : wt _ a |- _ => apply (everywhere_here _ _ D _ _ _ ys W) in E end. refine (kids_items _ _ ys _ E). left. reflexivity.
  - match goal with D : everywhere sound b, W : wt _ b |- _ => apply (everywhere_here _ _ D _ _ _ ys W) in E end. refine (kids_items _ _ ys _ E). right. left. reflexivity.
Qed.
Lemma within_item g name p r xs : within name r = Ok xs -> In (name, p) (g_kids g) -> (forall ys, r = Ok ys -> turn (look p) ys /\ Forall (item (look p)) ys) -> Forall (item g) xs.
Proof.
  intros E K H. unfold within in E. destruct r as [ks|]; [|discriminate E]. injection E as <-. constructor; [|constructor]. exists p. split; [exact K|]. destruct (H ks eq_refl) as (T & I). apply inside_writes; [exact T|]. split; [constructor|exact I].
Qed.
Lemma within_names name r xs : within name r = Ok xs -> names xs = [name].
Proof. unfold within. destruct r; [|discriminate]. intros E. injection E as <-. reflexivity. Qed.
Lemma sound_definitions vs : list_all (everywhere sound) vs -> zip_all (fun f x => wt (f_ty f) x) vs fields_Definitions -> method_sound "Definitions" MDefinitions fields_Definitions vs.
Proof.
  intros S W name xs E. opened vs S W. rename v into a, v0 into b. cbn [map marshal] in E. match type of E with bind ?r _ = Ok _ => destruct r as [ka|] eqn:Ea; [cbn [bind] in E|discriminate E] end. match type of E with bind ?r _ = Ok _ => destruct r as [kb|] eqn:Eb; [cbn [bind] in E|discriminate E] end. injection E as <-.
  apply one_kid, of_kid.
  { refine (turn_seq (look (Of "Definitions")) _ _ (or_introl eq_refl) _). rewrite names_app. refine (ordered_app [("standards", false)] _ _ [("patents", false)] _ _).
    - destruct (set (annotate a)); [rewrite (within_names _ _ _ Ea); apply ordered_here, ordered_nil|injection Ea as <-; apply ordered_nil].
    - destruct (set (annotate b)); [rewrite (within_names _ _ _ Eb); apply ordered_here, ordered_nil|injection Eb as <-; apply ordered_nil]. }
  split; [constructor|]. apply Forall_app. split.
  - destruct (set (annotate a)); [|injection Ea as <-; constructor]. destruct (listed_values (TRef "StandardDefinition") a) as (l & P & Wl & Dl); [assumption..|]. rewrite P in Ea. rewrite Forall_forall in Wl, Dl.
    refine (within_item (look (Of "Definitions")) _ (Special "standards") _ _ Ea (or_introl eq_refl) _). intros ys Ey.
    assert (L : Forall (is_kid ("standard", Of "StandardDefinition")) ys).
    { apply (concat_sound _ _ _ _ Ey). intros n zs Hn Ez. apply in_map_iff in Hn as (x & <- & Hx). exact (everywhere_here _ _ (Dl x Hx) _ _ _ zs (Wl x Hx) Ez). }
    split; [exact (kids_turn (look (Special "standards")) _ _ true _ (or_introl eq_refl) (or_introl eq_refl) L (fun Q => match Bool.diff_true_false Q with end))|exact (kids_items (look (Special "standards")) _ _ (or_introl eq_refl) L)].
  - destruct (set (annotate b)); [|injection Eb as <-; constructor]. destruct (listed_values (TRef "PatentChoice") b) as (l & P & Wl & Dl); [assumption..|]. rewrite P in Eb. rewrite Forall_forall in Wl, Dl.
    refine (within_item (look (Of "Definitions")) _ (Special "patents") _ _ Eb (or_intror (or_introl eq_refl)) _). intros ys Ey. split; [left; reflexivity|]. apply (concat_sound _ _ _ _ Ey). intros n zs Hn Ez. apply in_map_iff in Hn as (x & <- & Hx).
    exact (patent_items x zs (Dl x Hx) (Wl x Hx) Ez).
Qed.
Lemma environment_items x ys : everywhere sound x -> wt (TRef "EnvironmentVariableChoice") x -> enc_environment (annotate x) = Ok ys -> Forall (item (look (Of "EnvironmentVariables"))) ys.
Proof.
  intros D W E. destruct (wt_struct (TRef "EnvironmentVariableChoice") _ _ eq_refl W) as (vs & -> & Z). apply everywhere_below in D. cbn [below] in D. opened vs D Z. rename v into a, v0 into b. unfold enc_environment in E.
  change (nsubs (annotate (VStruct [a; b]))) with [annotate a; annotate b] in E. cbv iota beta in E. destruct (set (annotate a) && filled (annotate b))%bool; [discriminate E|]. destruct (set (annotate a)); [|destruct (filled (annotate b)); [|injection E as <-; constructor]].
  - match goal with D : everywhere sound a, W : wt _ a |- _ => apply (everywhere_here _ _ D _ _ _ ys W) in E end. refine (kids_items _ _ ys _ E). left. reflexivity.
  - injection E as <-. constructor; [|constructor]. exists Leaf. split; [right; left; reflexivity|]. apply inside_writes; [apply turn_text|]. split; [constructor|]. apply text_items. reflexivity.
Qed.
Lemma detail_items x ys : everywhere sound x -> wt (TRef "LicenseExpressionDetail") x -> enc_detail (annotate x) = Ok ys -> Forall (is_kid ("details", Special "details")) ys.
Proof.
  intros D W E. destruct (wt_struct (TRef "LicenseExpressionDetail") _ _ eq_refl W) as (vs & -> & Z). apply everywhere_below in D. cbn [below] in D. opened vs D Z.
  change (enc_struct fields_licenseExpressionDetailXML (map annotate [v; v1; v2]) "details" = Ok ys) in E. apply struct_sound in E as (a & ks & -> & T & Hi); [|cbn; auto|cbn; auto]. apply one_kid. exists a, ks. split; [reflexivity|apply inside_writes; [exact T|exact Hi]].
Qed.
Lemma choice_items x ys : everywhere sound x -> wt (TRef "LicenseChoice") x -> enc_choice (annotate x) = Ok ys -> Forall (item (look (Of "Licenses"))) ys.
Proof.
  intros D W E. destruct (wt_struct (TRef "LicenseChoice") _ _ eq_refl W) as (vs & -> & Z). apply everywhere_below in D. cbn [below] in D. opened vs D Z. rename v into license, v0 into expression, v1 into details. unfold enc_choice in E.
  change (nsubs (annotate (VStruct [license; expression; details; v2; v3; v4; v5]))) with (map annotate [license; expression; details; v2; v3; v4; v5]) in E. cbn [map] in E. cbv zeta in E.
  destruct (set (annotate license) && filled (annotate expression))%bool; [discriminate E|]. destruct (set (annotate license)).
  - match goal with D : everywhere sound license, W : wt _ license |- _ => apply (everywhere_here _ _ D _ _ _ ys W) in E end. refine (kids_items _ _ ys _ E). left. reflexivity.
  - destruct (filled (annotate expression)); [|injection E as <-; constructor]. destruct (set (annotate details)).
    + destruct (listed_values (TRef "LicenseExpressionDetail") details) as (l & P & Wl & Dl); [assumption..|]. rewrite P in E. rewrite Forall_forall in Wl, Dl. match type of E with bind ?r _ = Ok _ => destruct r as [ks|] eqn:Ek; [cbn [bind] in E|discriminate E] end. injection E as <-.
      assert (L : Forall (is_kid ("details", Special "details")) ks).
      { apply (concat_sound _ _ _ _ Ek). intros n zs Hn Ez. apply in_map_iff in Hn as (x & <- & Hx). exact (detail_items x zs (Dl x Hx) (Wl x Hx) Ez). }
      constructor; [|constructor]. exists (Special "expression-detailed"). split; [right; right; left; reflexivity|]. apply inside_writes; [exact (kids_turn (look (Special "expression-detailed")) _ _ true _ (or_introl eq_refl) (or_introl eq_refl) L (fun Q => match Bool.diff_true_false Q with end))|]. split.
      * constructor; [left; reflexivity|]. apply Forall_app. split; apply attr_if_known; [right; left; reflexivity|right; right; left; reflexivity].
      * exact (kids_items (look (Special "expression-detailed")) _ _ (or_introl eq_refl) L).
    + injection E as <-. constructor; [|constructor]. exists (Special "expression"). split; [right; left; reflexivity|]. apply inside_writes; [apply turn_text|]. split; [|apply text_items; reflexivity]. apply Forall_app. split; apply attr_if_known; [left; reflexivity|right; left; reflexivity].
Qed.

(** ** All values *)
Lemma struct_method_sound n m fs v omit name xs : kind_of (TRef n) = KStruct fs -> marshaler (TRef n) = m -> m <> MNone -> place_of (TRef n) = Of n -> wt (TRef n) v ->
  (forall vs, v = VStruct vs -> zip_all (fun f x => wt (f_ty f) x) vs fs -> method_sound n m fs vs) -> nenc (annotate v) (TRef n) omit name = Ok xs -> Forall (is_kid (kid name (TRef n))) xs.
Proof.
  intros K M N P W H E. destruct (wt_struct _ _ _ K W) as (vs & -> & Z). unfold kid. cbn [base]. rewrite P. apply (H vs eq_refl Z name xs).
  cbn [annotate nenc encode] in E. unfold fields_of in E. rewrite M, K in E. destruct m; try exact E. congruence.
Qed.
Lemma list_method_sound n m t enc v omit name xs : kind_of (TRef n) = KSlice t -> marshaler (TRef n) = m -> m <> MNone -> place_of (TRef n) = Of n -> called (TRef n) name = name -> wt (TRef n) v -> below sound v ->
  g_turns (look (Of n)) = [] ->
  (forall u ns, marshal m [] u ns name = match ns with [] => Ok [] | _ => within name (concat_all enc ns) end) ->
  (forall x ys, everywhere sound x -> wt t x -> enc (annotate x) = Ok ys -> Forall (item (look (Of n))) ys) -> nenc (annotate v) (TRef n) omit name = Ok xs -> Forall (is_kid (kid name (TRef n))) xs.
Proof.
  intros K M N P C W B Tn Q H E. unfold kid. cbn [base]. rewrite P, C. destruct v as [| | | |[x|]|[l|]|]; try (exfalso; clear - W K; cbn [wt] in W; rewrite K in W; first [exact W|discriminate W]).
  - cbn [wt] in W. rewrite K in W. cbn [below] in B. apply list_all_Forall in W, B. rewrite Forall_forall in W, B.
    assert (E' : marshal m [] (VSlice (Some l)) (map annotate l) name = Ok xs) by (cbn [annotate nenc encode] in E; unfold fields_of in E; rewrite K, M in E; clear - N E; destruct m; try exact E; congruence).
    rewrite Q in E'. destruct l as [|y l]; [injection E' as <-; constructor|]. cbn [map] in E'. change (annotate y :: map annotate l) with (map annotate (y :: l)) in E'. unfold within in E'. destruct (concat_all enc (map annotate (y :: l))) as [ks|] eqn:Ek; [|discriminate E']. injection E' as <-.
    apply one_kid, of_kid; [left; exact Tn|]. split; [constructor|]. apply (concat_sound _ _ _ _ Ek). intros z zs Hz Ez. apply in_map_iff in Hz as (x & <- & Hx). exact (H x zs (B x Hx) (W x Hx) Ez).
  - assert (E' : marshal m [] (VSlice None) [] name = Ok xs) by (cbn [annotate nenc encode] in E; unfold fields_of in E; rewrite K, M in E; clear - N E; destruct m; try exact E; congruence). rewrite Q in E'. injection E' as <-. constructor.
Qed.
Lemma plain_kid t name : marshaler t = MNone -> match kind_of t with KStr | KInt | KBool | KFlt => True | _ => False end -> kid name t = (name, Leaf).
Proof. intros M K. unfold kid, called, place_of, fields_of. destruct t as [| | | | | | |n]; try reflexivity; try contradiction K. cbn [base]. rewrite M. destruct (kind_of (TRef n)); try contradiction K; reflexivity. Qed.
Lemma leaf_kid name s : Forall (is_kid (name, Leaf)) [text_elem name s].
Proof. apply one_kid. do 2 eexists. split; [reflexivity|]. apply inside_writes; [apply turn_text|]. split; [constructor|]. apply text_items. reflexivity. Qed.
Lemma plain_sound v t omit name xs : below sound v -> marshaler t = MNone -> wt t v -> nenc (annotate v) t omit name = Ok xs -> Forall (is_kid (kid name t)) xs.
Proof.
  intros B M W E. destruct v as [s|z|b|f|[x|]|[l|]|vs]; cbn [annotate nenc encode] in E; rewrite ?M in E; try (injection E as <-).
  - rewrite plain_kid; [apply leaf_kid|exact M|cbn [wt] in W; rewrite W; exact I].
  - rewrite plain_kid; [apply leaf_kid|exact M|cbn [wt] in W; rewrite W; exact I].
  - rewrite plain_kid; [apply leaf_kid|exact M|cbn [wt] in W; rewrite W; exact I].
  - rewrite plain_kid; [apply leaf_kid|exact M|cbn [wt] in W; rewrite W; exact I].
  - cbn [below] in B. cbn [wt] in W. destruct (kind_of t) as [| | | |t'| | |] eqn:K; try contradiction. unfold elem_ty in E. rewrite K in E. apply (everywhere_here _ _ B _ _ _ xs W) in E.
    destruct t as [| | | | | | |n]; try discriminate K; [injection K as ->; exact E|]. pose proof (refs_plain n M) as R. rewrite K in R. contradiction.
  - constructor.
  - cbn [below] in B. cbn [wt] in W. destruct (kind_of t) as [| | | | |t'| |] eqn:K; try contradiction. unfold elem_ty in E. rewrite K in E. apply list_all_Forall in B, W. rewrite Forall_forall in B, W.
    apply (concat_sound _ _ _ _ E). intros n ys Hn En. apply in_map_iff in Hn as (x & <- & Hx). apply (checked_sound x _ _ _ _ (everywhere_here _ _ (B x Hx)) (W x Hx)) in En.
    destruct t as [| | | | | | |m]; try discriminate K; [injection K as ->; exact En|]. pose proof (refs_plain m M) as R. rewrite K in R. contradiction.
  - constructor.
  - cbn [below] in B. cbn [wt] in W. unfold fields_of in E. destruct (kind_of t) as [| | | | | |fs|] eqn:K; try contradiction. apply (struct_sound fs vs name xs B W) in E as (a & ks & -> & T & Hi).
    destruct t as [| | | | | | |n]; try discriminate K. unfold kid. cbn [base]. unfold called, place_of. unfold fields_of. rewrite M, K. apply one_kid, of_kid; cbn [look]; unfold fields_of; rewrite M, K; [exact T|exact Hi].
Qed.
Lemma method_value_sound n m v omit name xs : In (n, m) xml_methods -> below sound v -> wt (TRef n) v -> nenc (annotate v) (TRef n) omit name = Ok xs -> Forall (is_kid (kid name (TRef n))) xs.
Proof.
  intros Hi B W E. unfold xml_methods in Hi. cbn [In] in Hi.
  repeat (destruct Hi as [Hi|Hi]; [injection Hi as <- <-|]); [..|destruct Hi].
  - destruct v as [x| | | |[|]|[|]|]; try discriminate W; try contradiction W. injection E as <-. apply one_kid, of_kid; [apply turn_nil|]. split; [repeat constructor|constructor].
  - refine (struct_method_sound "Copyright" MCopyright fields_Copyright v omit name xs eq_refl eq_refl _ eq_refl W _ E); [discriminate|intros vs -> Z]. exact (sound_copyright vs Z).
  - refine (struct_method_sound "Dependency" MDependency fields_Dependency v omit name xs eq_refl eq_refl _ eq_refl W _ E); [discriminate|intros vs -> Z]. exact (sound_dependency vs).
  - refine (list_method_sound "EnvironmentVariables" MEnvironment (TRef "EnvironmentVariableChoice") enc_environment v omit name xs eq_refl eq_refl _ eq_refl eq_refl W B eq_refl _ _ E); [discriminate|reflexivity|exact environment_items].
  - refine (struct_method_sound "License" MLicense fields_License v omit name xs eq_refl eq_refl _ eq_refl W _ E); [discriminate|intros vs -> Z]. exact (sound_license vs B Z).
  - refine (list_method_sound "Licenses" MLicenses (TRef "LicenseChoice") enc_choice v omit name xs eq_refl eq_refl _ eq_refl eq_refl W B eq_refl _ _ E); [discriminate|reflexivity|exact choice_items].
  - refine (struct_method_sound "MLDatasetChoice" MDataset fields_MLDatasetChoice v omit name xs eq_refl eq_refl _ eq_refl W _ E); [discriminate|intros vs -> Z]. exact (sound_dataset vs B Z).
  - destruct v as [|z| | |[|]|[|]|]; try discriminate W; try contradiction W. injection E as <-. apply leaf_kid.
  - refine (struct_method_sound "CertificateState" MState fields_CertificateState v omit name xs eq_refl eq_refl _ eq_refl W _ E); [discriminate|intros vs -> Z]. exact (sound_state vs B Z).
  - refine (struct_method_sound "CertificateExtension" MExtension fields_CertificateExtension v omit name xs eq_refl eq_refl _ eq_refl W _ E); [discriminate|intros vs -> Z]. exact (sound_extension vs B Z).
  - refine (struct_method_sound "AsserterChoice" MAsserter fields_AsserterChoice v omit name xs eq_refl eq_refl _ eq_refl W _ E); [discriminate|intros vs -> Z]. exact (sound_asserter vs B Z).
  - refine (struct_method_sound "IKEv2Auth" MIKEv2 fields_IKEv2Auth v omit name xs eq_refl eq_refl _ eq_refl W _ E); [discriminate|intros vs -> Z]. exact (sound_ikev2 "IKEv2Auth" fields_IKEv2Auth vs eq_refl eq_refl eq_refl B Z).
  - refine (struct_method_sound "IKEv2Enc" MIKEv2 fields_IKEv2Enc v omit name xs eq_refl eq_refl _ eq_refl W _ E); [discriminate|intros vs -> Z]. exact (sound_ikev2 "IKEv2Enc" fields_IKEv2Enc vs eq_refl eq_refl eq_refl B Z).
  - refine (struct_method_sound "IKEv2Integ" MIKEv2 fields_IKEv2Integ v omit name xs eq_refl eq_refl _ eq_refl W _ E); [discriminate|intros vs -> Z]. exact (sound_ikev2 "IKEv2Integ" fields_IKEv2Integ vs eq_refl eq_refl eq_refl B Z).
  - refine (struct_method_sound "IKEv2Ke" MIKEv2 fields_IKEv2Ke v omit name xs eq_refl eq_refl _ eq_refl W _ E); [discriminate|intros vs -> Z]. exact (sound_ikev2 "IKEv2Ke" fields_IKEv2Ke vs eq_refl eq_refl eq_refl B Z).
  - refine (struct_method_sound "IKEv2Prf" MIKEv2 fields_IKEv2Prf v omit name xs eq_refl eq_refl _ eq_refl W _ E); [discriminate|intros vs -> Z]. exact (sound_ikev2 "IKEv2Prf" fields_IKEv2Prf vs eq_refl eq_refl eq_refl B Z).
  - refine (struct_method_sound "ToolsChoice" MTools fields_ToolsChoice v omit name xs eq_refl eq_refl _ eq_refl W _ E); [discriminate|intros vs -> Z]. exact (sound_tools vs B Z).
  - refine (struct_method_sound "Evidence" MEvidence fields_Evidence v omit name xs eq_refl eq_refl _ eq_refl W _ E); [discriminate|intros vs -> Z]. exact (sound_evidence vs B Z).
  - refine (struct_method_sound "DataClassification" MData fields_DataClassification v omit name xs eq_refl eq_refl _ eq_refl W _ E); [discriminate|intros vs -> Z]. exact (sound_data vs B Z).
  - refine (struct_method_sound "Definitions" MDefinitions fields_Definitions v omit name xs eq_refl eq_refl _ eq_refl W _ E); [discriminate|intros vs -> Z]. exact (sound_definitions vs B Z).
Qed.
Theorem all_sound v : everywhere sound v.
Proof.
  apply val_strong. clear v. intros v B t omit name xs W E. destruct (marshaler t) eqn:M; [apply (plain_sound v t omit name xs); assumption|..].
  all: destruct t as [| | | | | | |n]; try discriminate M; unfold marshaler in M; destruct (assoc n xml_methods) as [m|] eqn:A; [|discriminate M]; apply (method_value_sound n m v omit name xs); [apply assoc_methods, A|assumption..].
Qed.

(** ** Comparing is sound *)
Lemma has_in k l : has k l = true -> In k l.
Proof. unfold has. rewrite existsb_exists. intros (x & H & Q). apply String.eqb_eq in Q as ->. exact H. Qed.
Section Sound.
  Variable d : xsd.
  Variable R : list (string * string).
  Hypothesis C : closed d R = true.
  Definition carried (x : xml) : Prop := match x with XElem _ _ a ks => forall p s, writes p a ks -> fits d R deep p s = true -> known d s a ks | XText _ => True end.
  Lemma fits_more : forall fuel p s, fits d R fuel p s = true -> forall fuel', fuel <= fuel' -> fits d R fuel' p s = true.
  Proof.
    induction fuel as [|fuel IH]; intros p s F fuel' L; [discriminate F|]. destruct fuel' as [|fuel']; [inversion L|]. apply le_S_n in L. cbn [fits] in F |- *. destruct p as [|n|ps name t|n]; try exact F.
    all: unfold matches in F |- *; destruct (String.eqb s "*"); [reflexivity|]; destruct (assoc s d) as [T|]; [|discriminate F]; apply andb_prop in F as (F & K); rewrite F; cbn [andb]; rewrite forallb_forall in K |- *; intros k Hk; specialize (K k Hk);
      destruct (assoc (fst k) (t_kids T)) as [s'|]; [exact (IH _ _ K fuel' L)|discriminate K].
  Qed.
  Lemma matched fuel g s a ks : fuel <= deep -> matches d (fits d R fuel) g s = true -> Forall carried ks -> inside g a ks -> known d s a ks.
  Proof.
    intros L M F (A & K). unfold matches in M. destruct (String.eqb_spec s "*") as [->|]; [apply known_anything|]. destruct (assoc s d) as [T|] eqn:As; [|discriminate M].
    apply andb_prop in M as (M & MK). apply andb_prop in M as (MA & MT). rewrite forallb_forall in MA, MK. rewrite Forall_forall in A, K, F. apply (known_element d s T); [exact As|..].
    - intros k v H. specialize (MA k (A (k, v) H)). apply Bool.orb_true_iff in MA as [Q|Q]; [left; apply String.eqb_eq, Q|right; apply has_in, Q].
    - intros t H. specialize (K _ H). cbn [item] in K. rewrite K in MT. exact MT.
    - intros sp l a' ks' H. destruct (K _ H) as (p & Hp & W). specialize (MK _ Hp). cbn [fst snd] in MK. destruct (assoc l (t_kids T)) as [s'|]; [|discriminate MK]. exists s'. split; [reflexivity|].
      exact (F _ H p s' W (fits_more fuel p s' MK deep L)).
  Qed.
  Lemma writes_inside p a ks : writes p a ks -> inside (look p) a ks.
  Proof.
    intros W. inversion W as [p' a' ks' A T K _]; subst. split; apply Forall_forall; [exact A|]. intros [s|sp l a' ks'] H; [exact (T s H)|exact (K sp l a' ks' H)].
  Qed.
  Lemma all_carried x : carried x.
  Proof.
    induction x as [s|sp l a ks IH] using xml_induction; [exact I|]. intros p s W F. apply writes_inside in W. destruct p as [|n|ps name t|n]; try exact (matched 4 _ s a ks (le_S _ _ (le_n _)) F IH W).
    cbn [fits deep] in F. apply Bool.orb_true_iff in F as [F|F]; [apply String.eqb_eq in F as ->; apply known_anything|]. unfold listed in F. apply existsb_exists in F as ((n', s') & Hi & Q). apply andb_prop in Q as (Q1 & Q2). cbn [fst snd] in Q1, Q2. apply String.eqb_eq in Q1 as ->, Q2 as ->.
    unfold closed in C. rewrite forallb_forall in C. exact (matched deep _ s a ks (le_n _) (C _ Hi) IH W).
  Qed.
End Sound.
Lemma bom_written b xs : bom_to_xml b = Ok xs -> exists attrs kids, xs = [XElem "" "bom" attrs kids] /\ writes (Of "BOM") attrs kids.
Proof.
  unfold bom_to_xml. pose proof (typed_BOM b) as W. pose proof (all_sound (reify_BOM b)) as S. revert W S. generalize (reify_BOM b). intros v W S E. destruct (wt_struct (TRef "BOM") fields_BOM v eq_refl W) as (vs & -> & Z).
  destruct (struct_sound fields_BOM vs "BOM" xs (everywhere_below _ _ S) Z E) as (a & ks & -> & T & I). exists a, ks. split; [reflexivity|exact (inside_writes (Of "BOM") a ks T I)].
Qed.
Theorem covers_known d b xs : covers d = true -> bom_to_xml b = Ok xs -> exists attrs kids, xs = [XElem "" "bom" attrs kids] /\ known d "bom" attrs kids.
Proof.
  unfold covers. cbv zeta. generalize (met d). intros R C E. apply andb_prop in C as (L & C). apply bom_written in E as (a & ks & -> & W). exists a, ks. split; [reflexivity|].
  exact (all_carried d R C (XElem "" "bom" a ks) (Of "BOM") "bom" W L).
Qed.

(** ** A document that is not known *)
Fixpoint may_be (d : xsd) (fuel : nat) (n : string) (a : list (string * string)) (ks : list xml) : bool :=
  match fuel with
  | O => true
  | S fuel' =>
      if String.eqb n "*" then true else
      match assoc n d with
      | None => false
      | Some T => (forallb (fun kv => String.eqb (fst kv) "xmlns" || has (fst kv) (t_attrs T)) a
                   && forallb (fun x => match x with XText _ => t_text T | XElem _ l a' ks' => match assoc l (t_kids T) with Some n' => may_be d fuel' n' a' ks' | None => false end end) ks)%bool
      end
  end.
Lemma known_may_be d : forall fuel n a ks, known d n a ks -> may_be d fuel n a ks = true.
Proof.
  induction fuel as [|fuel IH]; intros n a ks K; [reflexivity|]. cbn [may_be]. destruct (String.eqb_spec n "*") as [->|N]; [reflexivity|]. inversion K as [n' T a' ks' As A Tx Ke|]; subst; [|contradiction N; reflexivity]. rewrite As. apply andb_true_intro. split; apply forallb_forall.
  - intros (k, v) H. cbn [fst]. destruct (A k v H) as [->|Hk]; [reflexivity|]. apply Bool.orb_true_iff. right. unfold has. apply existsb_exists. exists k. split; [exact Hk|apply String.eqb_refl].
  - intros [s|sp l a' ks'] H; [exact (Tx s H)|]. destruct (Ke sp l a' ks' H) as (n' & An & Kn). rewrite An. exact (IH _ _ _ Kn).
Qed.
Lemma not_known d fuel n a ks : may_be d fuel n a ks = false -> ~ known d n a ks.
Proof. intros M K. rewrite (known_may_be d fuel n a ks K) in M. discriminate. Qed.
