(** The parser does not look beyond the end of the root element. *)
From Verif Require Import Base Types Univ Wt LinkModel NumbersProofs Numbers Utf8 JsonText XmlModel XmlSpec XmlText XmlTextProofs.
From Coq Require Import Lia.
Local Open Scope string_scope.

Section Ext.
Variable j : string.

Lemma span_ext p s : forall x r, span p s = (x, r) -> r <> "" -> span p (s ++ j) = (x, r ++ j).
Proof.
  induction s as [|a s IH]; intros x r E N; cbn [span] in E; [injection E as <- <-; congruence|]. cbn [append span]. destruct (p a); [|injection E as <- <-; reflexivity].
  destruct (span p s) as (y & q). injection E as <- <-. rewrite (IH y q eq_refl N). reflexivity.
Qed.
Lemma space_ext s c r : skip_space s = String c r -> skip_space (s ++ j) = String c (r ++ j).
Proof.
  unfold skip_space. destruct (span space_byte s) as (x & q) eqn:E. cbn [snd]. intros ->. rewrite (span_ext _ _ _ _ E); [reflexivity|discriminate].
Qed.
Lemma name_ext s n r : read_name s = Some (n, r) -> r <> "" -> read_name (s ++ j) = Some (n, r ++ j).
Proof.
  unfold read_name. destruct (span _ s) as (x & q) eqn:E. destruct (is_name x) eqn:N; [|discriminate]. intros [= <- <-] R. rewrite (span_ext _ _ _ _ E R), N. reflexivity.
Qed.
Lemma pname_ext s n r : read_pname s = Some (n, r) -> r <> "" -> read_pname (s ++ j) = Some (n, r ++ j).
Proof.
  unfold read_pname. destruct (read_name s) as [(x & q)|] eqn:E; [|discriminate]. destruct (split_name x) eqn:N; [|discriminate]. intros [= <- <-] R. rewrite (name_ext _ _ _ E R), N. reflexivity.
Qed.
Lemma space_rest s c r : skip_space s = String c r -> s <> "".
Proof. intros E ->. discriminate. Qed.
Lemma text_ext q s : forall ent b0 b1 x r, read_text q ent b0 b1 s = Some (x, r) -> (q = None -> r <> "") -> read_text q ent b0 b1 (s ++ j) = Some (x, r ++ j).
Proof.
  induction s as [|b s IH]; intros ent b0 b1 x r E N.
  - cbn [read_text] in E. destruct q; [destruct ent; discriminate|]. destruct ent; [discriminate|]. injection E as <- <-. exfalso. apply (N eq_refl). reflexivity.
  - cbn [append read_text] in *.
    assert (G : forall t e c0 c1 y, add_before t (read_text q e c0 c1 s) = Some (y, r) -> add_before t (read_text q e c0 c1 (s ++ j)) = Some (y, r ++ j)).
    { intros t e c0 c1 y H. destruct (read_text q e c0 c1 s) as [(z & r')|] eqn:Z; [|discriminate]. cbn [add_before] in H. injection H as <- <-. rewrite (IH _ _ _ _ _ Z N). reflexivity. }
    destruct ent as [e|].
    + destruct (Ascii.eqb b ";"); [|apply IH; assumption]. destruct (entity (string_rev e "")); [|discriminate]. apply G, E.
    + destruct (_ && _)%bool; [discriminate|]. destruct (Ascii.eqb b "<"); [destruct q; [discriminate|]; injection E as <- <-; reflexivity|].
      destruct q as [c|].
      * destruct (Ascii.eqb b c); [injection E as <- <-; reflexivity|]. destruct (Ascii.eqb b "&"); [apply IH; assumption|apply G, E].
      * destruct (Ascii.eqb b "&"); [apply IH; assumption|apply G, E].
Qed.
Lemma checked_ext f g x r : checked_text f = Some (x, r) -> (forall y q, f = Some (y, q) -> g = Some (y, q ++ j)) -> checked_text g = Some (x, r ++ j).
Proof. destruct f as [(y & q)|]; [|discriminate]. cbn [checked_text]. intros E H. rewrite (H y q eq_refl). cbn [checked_text]. destruct (legal y); [|discriminate]. injection E as <- <-. reflexivity. Qed.
Lemma cdata_ext s : forall b0 b1 x r, read_cdata b0 b1 s = Some (x, r) -> read_cdata b0 b1 (s ++ j) = Some (x, r ++ j).
Proof.
  induction s as [|b s IH]; intros b0 b1 x r E; [discriminate|]. cbn [append read_cdata] in *. destruct (_ && _)%bool; [injection E as <- <-; reflexivity|].
  destruct (read_cdata b1 b s) as [(y & q)|] eqn:Q; [|discriminate]. rewrite (IH _ _ _ _ Q). cbn [add_before] in *. injection E as <- <-. reflexivity.
Qed.
Lemma comment_ext strict s : forall b0 b1 r, skip_comment strict b0 b1 s = Some r -> skip_comment strict b0 b1 (s ++ j) = Some (r ++ j).
Proof.
  induction s as [|b s IH]; intros b0 b1 r E; [discriminate|]. cbn [append skip_comment] in *. destruct (_ && _)%bool; [|apply IH, E].
  destruct (Ascii.eqb b ">"); [injection E as <-; reflexivity|]. destruct strict; [discriminate|apply IH, E].
Qed.
Lemma instruction_ext s : forall b0 x r, read_instruction b0 s = Some (x, r) -> read_instruction b0 (s ++ j) = Some (x, r ++ j).
Proof.
  induction s as [|b s IH]; intros b0 x r E; [discriminate|]. cbn [append read_instruction] in *. destruct (_ && _)%bool; [injection E as <- <-; reflexivity|].
  destruct (read_instruction b s) as [(y & q)|] eqn:Q; [|discriminate]. rewrite (IH _ _ _ Q). cbn [add_before] in *. injection E as <- <-. reflexivity.
Qed.
Lemma strip_ext p : forall s r, Base.strip_prefix p s = Some r -> Base.strip_prefix p (s ++ j) = Some (r ++ j).
Proof.
  induction p as [|a p IH]; intros s r E; [cbn in *; injection E as <-; destruct s; reflexivity|]. destruct s as [|b s]; [discriminate|]. cbn [append Base.strip_prefix] in *.
  destruct (Ascii.eqb a b); [apply IH, E|discriminate].
Qed.
Lemma strip_none p : forall s, Base.strip_prefix p s = None -> Base.strip_prefix p (s ++ j) = None \/ exists t, p = s ++ t.
Proof.
  induction p as [|a p IH]; intros s E; [discriminate|]. destruct s as [|b s]; [right; eexists; reflexivity|]. cbn [append Base.strip_prefix] in *.
  destruct (Ascii.eqb_spec a b) as [<-|]; [|auto]. destruct (IH s E) as [|(t & ->)]; eauto.
Qed.
Lemma directive_more fuel : forall q d s r, skip_directive fuel q d s = Some r -> forall k, skip_directive (fuel + k) q d s = Some r.
Proof.
  induction fuel as [|fuel IH]; intros q d s r E k; [discriminate|]. cbn [Nat.add skip_directive] in *. destruct s as [|b s]; [discriminate|].
  destruct q as [q|]; [apply IH, E|]. destruct (Ascii.eqb b ">"); [destruct d; [exact E|apply IH, E]|]. destruct (_ || _)%bool; [apply IH, E|]. destruct (Ascii.eqb b "<"); [|apply IH, E].
  destruct (Base.strip_prefix "!--" s); [|apply IH, E]. destruct (skip_comment _ _ _ _); [apply IH, E|discriminate].
Qed.
Lemma directive_ext fuel : forall q d s r, skip_directive fuel q d s = Some r -> skip_directive fuel q d (s ++ j) = Some (r ++ j).
Proof.
  induction fuel as [|fuel IH]; intros q d s r E; [discriminate|]. cbn [skip_directive] in *. destruct s as [|b s]; [discriminate|]. cbn [append].
  destruct q as [q|]; [apply IH, E|]. destruct (Ascii.eqb b ">"); [destruct d; [injection E as <-; reflexivity|apply IH, E]|]. destruct (_ || _)%bool; [apply IH, E|]. destruct (Ascii.eqb b "<"); [|apply IH, E].
  destruct (Base.strip_prefix "!--" s) as [r1|] eqn:P.
  - rewrite (strip_ext _ _ _ P). destruct (skip_comment _ _ _ r1) eqn:C; [|discriminate]. rewrite (comment_ext _ _ _ _ _ C). apply IH, E.
  - destruct (strip_none _ _ P) as [Q|(t & Q)]; [rewrite Q; apply IH, E|]. exfalso. revert E. clear - P Q.
    destruct s as [|b1 [|b2 [|b3 s]]]; cbn in Q.
    + destruct fuel; discriminate.
    + injection Q as <- _. destruct fuel as [|[|fuel]]; discriminate.
    + injection Q as <- <- _. destruct fuel as [|[|[|fuel]]]; discriminate.
    + injection Q as <- <- <- Q. discriminate P.
Qed.
Definition attr_rest (fuel : nat) (s1 : string) : option (list (pname * string) * bool * string) :=
  match read_pname s1 with
  | None => None
  | Some (n, s2) =>
      match skip_space s2 with
      | String e s3 =>
          if Ascii.eqb e "=" then
            match read_value (skip_space s3) with
            | None => None
            | Some (v, s4) => match read_attrs fuel s4 with
                              | Some (l, e, r) => Some ((n, v) :: l, e, r)
                              | None => None
                              end
            end
          else None
      | "" => None
      end
  end.
Lemma attrs_cases fuel s : read_attrs (S fuel) s =
  match skip_space s with
  | "" => None
  | String c r =>
      if Ascii.eqb c ">" then Some ([], false, r)
      else if Ascii.eqb c "/" then match r with "" => None | String d r' => if Ascii.eqb d ">" then Some ([], true, r') else None end
      else attr_rest fuel (String c r)
  end.
Proof.
  cbn [read_attrs]. destruct (skip_space s) as [|c r]; [reflexivity|].
  assert (R : forall s1, match read_pname s1 with
              | None => None
              | Some (n, s2) => match skip_space s2 with
                  | String "=" s3 => match read_value (skip_space s3) with
                                     | None => None
                                     | Some (v, s4) => match read_attrs fuel s4 with Some (l, e, r) => Some ((n, v) :: l, e, r) | None => None end
                                     end
                  | _ => None
                  end
              end = attr_rest fuel s1).
  { intros s1. unfold attr_rest. destruct (read_pname s1) as [(n & s2)|]; [|reflexivity]. destruct (skip_space s2) as [|e s3]; [reflexivity|].
    destruct (Ascii.eqb_spec e "=") as [->|Ne]; [reflexivity|]. destruct e as [[] [] [] [] [] [] [] []]; try reflexivity. exfalso. apply Ne. reflexivity. }
  destruct (Ascii.eqb_spec c ">") as [->|N1]; [reflexivity|]. destruct (Ascii.eqb_spec c "/") as [->|N2].
  - destruct r as [|d r]; [reflexivity|]. destruct (Ascii.eqb_spec d ">") as [->|N3]; [reflexivity|]. destruct d as [[] [] [] [] [] [] [] []]; try reflexivity. exfalso. apply N3. reflexivity.
  - rewrite <- R. destruct c as [[] [] [] [] [] [] [] []]; try reflexivity; exfalso; first [apply N1; reflexivity|apply N2; reflexivity].
Qed.
Lemma value_ext s x r : read_value s = Some (x, r) -> read_value (s ++ j) = Some (x, r ++ j).
Proof.
  destruct s as [|q s]; [discriminate|]. cbn [append read_value]. destruct (_ || _)%bool; [|discriminate]. intros E. eapply checked_ext; [exact E|]. intros y p Y. apply text_ext; [exact Y|discriminate].
Qed.
Lemma value_none : read_value "" = None.
Proof. reflexivity. Qed.
Lemma space_value s x r : read_value (skip_space s) = Some (x, r) -> read_value (skip_space (s ++ j)) = Some (x, r ++ j).
Proof.
  destruct (skip_space s) as [|c q] eqn:E; [discriminate|]. intros V. rewrite (space_ext _ _ _ E). apply (value_ext (String c q) x r V).
Qed.
Lemma attrs_ext fuel : forall s l e r, read_attrs fuel s = Some (l, e, r) -> forall k, read_attrs (fuel + k) (s ++ j) = Some (l, e, r ++ j).
Proof.
  induction fuel as [|fuel IH]; intros s l e r E k; [discriminate|]. cbn [Nat.add]. rewrite attrs_cases in E |- *. destruct (skip_space s) as [|c q] eqn:S; [discriminate|]. rewrite (space_ext _ _ _ S).
  destruct (Ascii.eqb c ">"); [injection E as <- <- <-; reflexivity|]. destruct (Ascii.eqb c "/").
  { destruct q as [|d q]; [discriminate|]. cbn [append]. destruct (Ascii.eqb d ">"); [injection E as <- <- <-; reflexivity|discriminate]. }
  unfold attr_rest in *. destruct (read_pname (String c q)) as [(n & s2)|] eqn:P; [|discriminate]. destruct (skip_space s2) as [|g s3] eqn:S2; [discriminate|].
  change (String c (q ++ j)) with (String c q ++ j). rewrite (pname_ext _ _ _ P (space_rest _ _ _ S2)), (space_ext _ _ _ S2). destruct (Ascii.eqb g "="); [|discriminate].
  destruct (read_value (skip_space s3)) as [(v & s4)|] eqn:V; [|discriminate]. rewrite (space_value _ _ _ V). destruct (read_attrs fuel s4) as [((l' & e') & r')|] eqn:A; [|discriminate].
  rewrite (IH _ _ _ _ A). injection E as <- <- <-. reflexivity.
Qed.

Definition end_tag (s1 : string) : option (token * string) :=
  match read_pname s1 with
  | Some (n, s2) => match skip_space s2 with String c r => if Ascii.eqb c ">" then Some (TEnd n, r) else None | "" => None end
  | None => None
  end.
Definition bang (s1 : string) : option (token * string) :=
  match s1 with
  | "" => None
  | String c s2 =>
      if Ascii.eqb c "-" then
        match s2 with
        | "" => None
        | String d s3 => if Ascii.eqb d "-" then match skip_comment true "000" "000" s3 with Some r => Some (TSkip, r) | None => None end else None
        end
      else if Ascii.eqb c "[" then
        match Base.strip_prefix "CDATA[" s2 with
        | Some s3 => match checked_text (chop2 (read_cdata "000" "000" s3)) with Some (x, r) => Some (TText x, r) | None => None end
        | None => None
        end
      else match skip_directive (S (String.length s2)) None 0 s2 with Some r => Some (TSkip, r) | None => None end
  end.
Definition pi (s1 : string) : option (token * string) :=
  match read_name s1 with
  | Some (target, s2) => match read_instruction "000" (skip_space s2) with
                         | Some (content, r) => if instruction_ok target (String.substring 0 (String.length content - 1) content) then Some (TSkip, r) else None
                         | None => None
                         end
  | None => None
  end.
Definition start_tag (s1 : string) : option (token * string) :=
  match read_pname s1 with
  | Some (n, s2) => match read_attrs (S (String.length s2)) s2 with Some (l, e, r) => Some (TStart n l e, r) | None => None end
  | None => None
  end.
Lemma bang_cases s1 : next_token (String "<" (String "!" s1)) = bang s1.
Proof.
  destruct s1 as [|c s2]; [reflexivity|]. unfold bang. destruct (Ascii.eqb_spec c "-") as [->|N1].
  - destruct s2 as [|d s3]; [reflexivity|]. destruct (Ascii.eqb_spec d "-") as [->|N]; [reflexivity|]. destruct d as [[] [] [] [] [] [] [] []]; try reflexivity. exfalso. apply N. reflexivity.
  - destruct (Ascii.eqb_spec c "[") as [->|N2]; [reflexivity|]. destruct c as [[] [] [] [] [] [] [] []]; try reflexivity; exfalso; first [apply N1; reflexivity|apply N2; reflexivity].
Qed.
Lemma end_cases s1 : next_token (String "<" (String "/" s1)) = end_tag s1.
Proof.
  unfold end_tag. change (next_token (String "<" (String "/" s1))) with
    (match read_pname s1 with Some (n, s2) => match skip_space s2 with String ">" r => Some (TEnd n, r) | _ => None end | None => None end).
  destruct (read_pname s1) as [(n & s2)|]; [|reflexivity]. destruct (skip_space s2) as [|c r]; [reflexivity|].
  destruct (Ascii.eqb_spec c ">") as [->|N]; [reflexivity|]. destruct c as [[] [] [] [] [] [] [] []]; try reflexivity. exfalso. apply N. reflexivity.
Qed.
Lemma token_cases s : next_token s =
  match s with
  | "" => None
  | String a s1 =>
      if Ascii.eqb a "<" then
        match s1 with
        | "" => None
        | String b s2 => if Ascii.eqb b "/" then end_tag s2 else if Ascii.eqb b "?" then pi s2 else if Ascii.eqb b "!" then bang s2 else start_tag s1
        end
      else match checked_text (read_text None None "000" "000" s) with Some (x, r) => Some (TText x, r) | None => None end
  end.
Proof.
  destruct s as [|a s1]; [reflexivity|]. destruct (Ascii.eqb_spec a "<") as [->|N]; [|apply token_other, N]. destruct s1 as [|b s2]; [reflexivity|].
  destruct (Ascii.eqb_spec b "/") as [->|N1]; [apply end_cases|]. destruct (Ascii.eqb_spec b "?") as [->|N2]; [reflexivity|]. destruct (Ascii.eqb_spec b "!") as [->|N3]; [apply bang_cases|].
  destruct b as [[] [] [] [] [] [] [] []]; try reflexivity; exfalso; first [apply N1; reflexivity|apply N2; reflexivity|apply N3; reflexivity].
Qed.
Lemma token_ext s t r : next_token s = Some (t, r) -> (forall x, t = TText x -> r <> "") -> next_token (s ++ j) = Some (t, r ++ j).
Proof.
  rewrite !token_cases. destruct s as [|a s1]; [discriminate|]. cbn [append]. destruct (Ascii.eqb a "<") eqn:A.
  - destruct s1 as [|b s2]; [discriminate|]. cbn [append]. destruct (Ascii.eqb b "/"); [|destruct (Ascii.eqb b "?"); [|destruct (Ascii.eqb b "!")]].
    + unfold end_tag. intros E _. destruct (read_pname s2) as [(n & s3)|] eqn:P; [|discriminate]. destruct (skip_space s3) as [|c q] eqn:S; [discriminate|].
      rewrite (pname_ext _ _ _ P (space_rest _ _ _ S)), (space_ext _ _ _ S). destruct (Ascii.eqb c ">"); [|discriminate]. injection E as <- <-. reflexivity.
    + unfold pi. intros E _. destruct (read_name s2) as [(n & s3)|] eqn:P; [|discriminate]. destruct (skip_space s3) as [|c q] eqn:S; [discriminate|].
      rewrite (name_ext _ _ _ P (space_rest _ _ _ S)), (space_ext _ _ _ S). destruct (read_instruction _ (String c q)) as [(x & r')|] eqn:I; [|discriminate].
      change (String c (q ++ j)) with (String c q ++ j). rewrite (instruction_ext _ _ _ _ I). destruct (instruction_ok _ _); [|discriminate]. injection E as <- <-. reflexivity.
    + unfold bang. intros E _. destruct s2 as [|c s3]; [discriminate|]. cbn [append]. destruct (Ascii.eqb c "-").
      { destruct s3 as [|d s4]; [discriminate|]. cbn [append]. destruct (Ascii.eqb d "-"); [|discriminate]. destruct (skip_comment _ _ _ s4) eqn:C; [|discriminate]. rewrite (comment_ext _ _ _ _ _ C). injection E as <- <-. reflexivity. }
      destruct (Ascii.eqb c "[").
      { destruct (Base.strip_prefix _ s3) as [s4|] eqn:P; [|discriminate]. rewrite (strip_ext _ _ _ P). destruct (checked_text (chop2 (read_cdata "000" "000" s4))) as [(x & q)|] eqn:C; [|discriminate].
        erewrite (checked_ext (chop2 (read_cdata "000" "000" s4)) (chop2 (read_cdata "000" "000" (s4 ++ j))) x q C); [injection E as <- <-; reflexivity|].
        intros y p Y. destruct (read_cdata _ _ s4) as [(z & p')|] eqn:D; [|discriminate]. rewrite (cdata_ext _ _ _ _ _ D). cbn [chop2] in *. injection Y as <- <-. reflexivity. }
      destruct (skip_directive _ _ _ s3) as [q|] eqn:D; [|discriminate]. injection E as <- <-. apply directive_ext in D.
      rewrite length_app_s. change (S (String.length s3 + String.length j)) with (S (String.length s3) + String.length j)%nat. rewrite (directive_more _ _ _ _ _ D). reflexivity.
    + unfold start_tag. intros E _. destruct (read_pname (String b s2)) as [(n & s3)|] eqn:P; [|discriminate]. destruct (read_attrs _ s3) as [((l & e) & q)|] eqn:R; [|discriminate].
      assert (N : s3 <> "") by (intros ->; discriminate). change (String b (s2 ++ j)) with (String b s2 ++ j). rewrite (pname_ext _ _ _ P N). injection E as <- <-. rewrite length_app_s.
      change (S (String.length s3 + String.length j)) with (S (String.length s3) + String.length j)%nat. rewrite (attrs_ext _ _ _ _ _ R). reflexivity.
  - intros E N. destruct (checked_text _) as [(x & q)|] eqn:C; [|discriminate]. injection E as <- <-. change (String a (s1 ++ j)) with (String a s1 ++ j).
    rewrite (checked_ext _ (read_text None None "000" "000" (String a s1 ++ j)) _ _ C); [reflexivity|]. intros y p Y. apply text_ext; [exact Y|]. intros _ ->. rewrite Y in C. cbn [checked_text] in C.
    destruct (legal y); [|discriminate]. injection C as <- <-. apply (N y eq_refl). reflexivity.
Qed.
Lemma build_empty fuel st : build fuel "" st = None.
Proof. destruct fuel; reflexivity. Qed.
Lemma build_ext fuel : forall s st x r, build fuel s st = Some (x, r) -> forall k, build (fuel + k) (s ++ j) st = Some (x, r ++ j).
Proof.
  induction fuel as [|fuel IH]; intros s st x r E k; [discriminate|]. cbn [Nat.add build] in *. destruct (next_token s) as [(t & q)|] eqn:T; [|discriminate].
  assert (N : forall y, t = TText y -> q <> "").
  { intros y -> ->. destruct st; rewrite build_empty in E; discriminate. }
  rewrite (token_ext _ _ _ T N). destruct t as [n attrs e|n|y|].
  - destruct e; [destruct st as [|g st]; [injection E as <- <-; reflexivity|apply IH, E]|]. destruct st; apply IH, E.
  - destruct st as [|f st]; [discriminate|]. destruct (pname_eqb n (fr_name f)); [|discriminate]. destruct st as [|g st]; [injection E as <- <-; reflexivity|apply IH, E].
  - destruct st; apply IH, E.
  - apply IH, E.
Qed.
(** Whatever follows the root element makes no difference. *)
Theorem parse_ext s x : xml_parse s = Some x -> xml_parse (s ++ j) = Some x.
Proof.
  unfold xml_parse. destruct (build _ s []) as [(y & r)|] eqn:B; [|discriminate]. intros [= <-]. rewrite length_app_s.
  change (S (String.length s + String.length j)) with (S (String.length s) + String.length j)%nat. rewrite (build_ext _ _ _ _ _ B). reflexivity.
Qed.
End Ext.
