(** Numbers and whole documents: what is written is read back. *)
From Verif Require Import Base Types Univ Wt LinkModel LinkSpec LinkProofs Version Numbers NumbersProofs Utf8 Utf8Proofs GobModel JsonModel JsonBack JsonProofs JsonSpec JsonOut JsonText JsonTextProofs.
From Coq Require Import Lia.
Local Open Scope string_scope.

(** ** Numbers *)
Definition no_lead (s : string) : Prop := match s with String "0" (String _ _) => False | _ => True end.
Lemma unsign_num neg s : (match s with String a _ => is_digit a = true | "" => False end) ->
  (match sign_text neg ++ s with String "-" r => r | _ => sign_text neg ++ s end) = s.
Proof.
  destruct neg; cbn; [reflexivity|]. destruct s as [|a s]; [tauto|].
  intros D. destruct a as [[] [] [] [] [] [] [] []]; try discriminate D; reflexivity.
Qed.
Lemma head_digit ip r : digits ip = true -> ip <> "" -> match ip ++ r with String a _ => is_digit a = true | "" => False end.
Proof. destruct ip as [|a ip]; [contradiction|]. intros D _. cbn. eapply digits_head, D. Qed.
Lemma lead_cases ip : no_lead ip -> ip <> "" -> forall A (x y : A), (match ip with "" => x | String "0" (String _ _) => x | _ => y end) = y.
Proof.
  intros L N A x y. destruct ip as [|a ip]; [contradiction|]. destruct a as [[] [] [] [] [] [] [] []]; try reflexivity. destruct ip; [reflexivity|contradiction].
Qed.
Lemma num_plain neg ip et x : digits ip = true -> ip <> "" -> no_lead ip -> etext_ok et x -> json_number (sign_text neg ++ ip ++ et) = true.
Proof.
  intros D N L E. unfold json_number. rewrite unsign_num by (apply head_digit; assumption). rewrite span_digits_app by eauto using etext_no_digit.
  pose proof (etext_not_dot et x E) as ND. unfold etext_ok in E. 
  assert (G : match et with String "." _ => False | _ => True end) by (destruct et as [|b et]; [exact I|]; destruct b as [[] [] [] [] [] [] [] []]; try exact I; exact (ND et eq_refl)).
  destruct ip as [|a ip]; [contradiction|].
  assert (F : forall B (x y z : B), (match et with String "." r => y | _ => x end) = x) by (intros; destruct et as [|b et]; [reflexivity|]; destruct b as [[] [] [] [] [] [] [] []]; try reflexivity; contradiction).
  destruct a as [[] [] [] [] [] [] [] []]; try (destruct et as [|b et]; [reflexivity|]; rewrite E; destruct b as [[] [] [] [] [] [] [] []]; try reflexivity; contradiction).
  destruct ip; [|contradiction]. destruct et as [|b et]; [reflexivity|]; rewrite E; destruct b as [[] [] [] [] [] [] [] []]; try reflexivity; contradiction.
Qed.
Lemma num_frac neg ip fp et x : digits ip = true -> ip <> "" -> no_lead ip -> digits fp = true -> fp <> "" -> etext_ok et x ->
  json_number (sign_text neg ++ ip ++ "." ++ fp ++ et) = true.
Proof.
  intros D N L D2 N2 E. unfold json_number. rewrite unsign_num by (apply head_digit; assumption). rewrite span_digits_app by (trivial; reflexivity).
  destruct ip as [|a ip]; [contradiction|]. cbn [append]. rewrite span_digits_app by eauto using etext_no_digit. destruct fp as [|b fp]; [contradiction|].
  unfold etext_ok in E. rewrite E. destruct a as [[] [] [] [] [] [] [] []]; try reflexivity. destruct ip; [reflexivity|contradiction].
Qed.
Lemma format_lead z : (0 <= z)%Z -> no_lead (format_int z).
Proof.
  intros H. destruct (Z.eq_dec z 0) as [->|N]; [exact I|]. destruct (format_int_pos z ltac:(lia)) as (P & _).
  destruct P as (a & r & -> & O & _). unfold no_lead. destruct a as [[] [] [] [] [] [] [] []]; try exact I. destruct r; [exact I|]. cbn in O. intuition discriminate.
Qed.
Lemma format_number z : json_number (format_int z) = true.
Proof.
  destruct (Z.ltb_spec z 0) as [L|L].
  - rewrite format_int_neg by exact L. destruct (format_int_digits (- z) ltac:(lia)) as (D & _ & N).
    rewrite <- (append_nil_r (format_int (- z))). apply (num_plain true _ "" 0); trivial; [apply format_lead; lia|reflexivity].
  - destruct (format_int_digits z L) as (D & _ & N).
    rewrite <- (append_nil_r (format_int z)). apply (num_plain false _ "" 0); trivial; [apply format_lead; lia|reflexivity].
Qed.
Lemma lead_app a b : no_lead a -> a <> "" -> a <> "0" -> no_lead (a ++ b).
Proof.
  destruct a as [|x a]; [contradiction|]. intros L _ N. destruct x as [[] [] [] [] [] [] [] []]; try exact I. destruct a; [contradiction N; reflexivity|contradiction].
Qed.
Lemma lead_sub n s : no_lead s -> (1 <= n)%nat -> no_lead (String.substring 0 n s) \/ s = "0".
Proof.
  destruct n as [|n]; [lia|]. destruct s as [|a s]; [left; exact I|]. intros L _. cbn [String.substring].
  destruct a as [[] [] [] [] [] [] [] []]; try (left; exact I). destruct s; [right; reflexivity|contradiction].
Qed.
Lemma digits_not_zero m : m <> 0%N -> float_digits m <> "0".
Proof. intros M E. destruct (float_digits_ok m) as (_ & V & _). rewrite E in V. cbn in V. lia. Qed.
Lemma float_number neg m e : json_number (json_float neg m e) = true.
Proof.
  destruct (float_digits_ok m) as (D & V & N). pose proof (format_lead (Z.of_N m) ltac:(lia)) as L. fold (float_digits m) in L. unfold json_float.
  change (if neg then "-" else "") with (sign_text neg). destruct (negb (m =? 0)%N && _)%bool eqn:B.
  - unfold layout_e. destruct (float_digits m) as [|a [|b r]] eqn:E; [contradiction| |].
    + apply (num_plain neg (String a "") _ (float_point m e - 1)); trivial. apply etext_exponent.
    + change (String a (String b r)) with (String a "" ++ String b r) in D. rewrite digits_app in D. apply andb_prop in D as (D1 & D2).
      apply (num_frac neg (String a "") (String b r) _ (float_point m e - 1)); trivial; try discriminate; [|apply etext_exponent].
      destruct a as [[] [] [] [] [] [] [] []]; exact I.
  - unfold layout_f. destruct (N.eqb_spec m 0) as [->|M]; [destruct neg; reflexivity|]. pose proof (digits_not_zero m M) as Z0.
    destruct (Z.leb_spec (float_point m e) 0) as [P|P].
    + pose proof (num_frac neg "0" (zeros (Z.to_nat (- float_point m e)) ++ float_digits m) "" 0) as H. rewrite append_nil_r in H. apply H; try reflexivity; try discriminate.
      * rewrite digits_app, digits_zeros, D. reflexivity.
      * destruct (zeros _); [exact N|discriminate].
    + destruct (Z.leb_spec 0 e) as [Pe|Pe].
      * rewrite <- (append_nil_r (float_digits m ++ _)). apply (num_plain neg _ "" 0); [rewrite digits_app, D, digits_zeros; reflexivity| | |reflexivity].
        -- destruct (float_digits m); [contradiction|discriminate].
        -- apply lead_app; assumption.
      * set (n := Z.to_nat (float_point m e)). assert (Ln : (0 < n < String.length (float_digits m))%nat) by (unfold n, float_point in *; lia).
        assert (S := substring_split n (float_digits m) ltac:(lia)). destruct (lead_sub n (float_digits m) L ltac:(lia)) as [Ls|]; [|contradiction].
        set (ip := String.substring 0 n (float_digits m)) in *. set (fp := String.substring n (String.length (float_digits m) - n) (float_digits m)) in *.
        assert (Li : String.length ip = n) by (apply substring_length; lia).
        assert (Lf : (String.length ip + String.length fp)%nat = String.length (float_digits m)) by (rewrite <- length_append, S; reflexivity).
        pose proof D as D'. rewrite <- S, digits_app in D'. apply andb_prop in D' as (Di & Df).
        pose proof (num_frac neg ip fp "" 0) as H. rewrite append_nil_r in H. apply H; trivial; try reflexivity.
        -- destruct ip; [cbn in Li; lia|discriminate].
        -- destruct fp; [cbn in Lf; lia|discriminate].
Qed.

Fixpoint all_num (s : string) : bool := match s with "" => true | String a s' => num_char a && all_num s' end.
Lemma all_num_app a b : all_num (a ++ b) = (all_num a && all_num b)%bool.
Proof. induction a as [|x a IH]; [reflexivity|]. cbn. rewrite IH. apply andb_assoc. Qed.
Lemma all_num_digits s : digits s = true -> all_num s = true.
Proof. induction s as [|a s IH]; intros D; [reflexivity|]. cbn [digits all_num] in *. apply andb_prop in D as (A & B). unfold num_char. change (is_digit a = true) in A. rewrite A. apply IH, B. Qed.
Lemma span_all s : forall d r, span_digits s = (d, r) -> s = d ++ r /\ digits d = true.
Proof.
  induction s as [|a s IH]; intros d r E; cbn [span_digits] in E; [injection E as <- <-; split; reflexivity|].
  destruct (is_digit a) eqn:A; [|injection E as <- <-; split; reflexivity]. destruct (span_digits s) as [d' r']. injection E as <- <-.
  destruct (IH d' r' eq_refl) as (-> & D). split; [reflexivity|]. cbn [digits]. change (is_digit a && digits d' = true)%bool. rewrite A. exact D.
Qed.
Lemma exponent_num s x : parse_exponent s = Some x -> all_num s = true.
Proof.
  destruct s as [|a s]; [reflexivity|]. cbn [parse_exponent]. destruct (Ascii.eqb a "e" || Ascii.eqb a "E")%bool eqn:A; [|discriminate].
  intros H. cbn [all_num]. apply andb_true_intro. split.
  { unfold num_char. apply orb_prop in A as [A|A]; rewrite A; repeat rewrite orb_true_r; reflexivity. }
  assert (G : forall neg r, (match span_digits r with (String b d, "") => Some (let x := Z.of_N (digits_N (String b d)) in if (neg : bool) then (- x)%Z else x) | _ => None end) = Some x -> all_num r = true).
  { intros neg r Hr. destruct (span_digits r) as [d q] eqn:E. apply span_all in E as (-> & D). destruct d as [|b d]; [discriminate|]. destruct q; [|discriminate].
    rewrite append_nil_r. apply all_num_digits, D. }
  destruct s as [|b s]; [reflexivity|]. destruct b as [[] [] [] [] [] [] [] []]; try (match goal with |- all_num ?r = true => exact (G false r H) end); cbn [all_num]; [exact (G false s H)|exact (G true s H)].
Qed.
Lemma number_num s : json_number s = true -> all_num s = true.
Proof.
  unfold json_number. intros H.
  assert (G : forall s, match span_digits s with ("", _) => false | (String "0" (String _ _), _) => false
     | (_, String "." r) => match span_digits r with ("", _) => false | (_, r') => match parse_exponent r' with Some _ => true | None => false end end
     | (_, r) => match parse_exponent r with Some _ => true | None => false end end = true -> all_num s = true).
  { clear. intros s H. destruct (span_digits s) as [d r] eqn:E. apply span_all in E as (-> & D). rewrite all_num_app, (all_num_digits d D). cbn [andb].
    assert (Hr : match r with String "." q => match span_digits q with ("", _) => false | (_, r') => match parse_exponent r' with Some _ => true | None => false end end
      | _ => match parse_exponent r with Some _ => true | None => false end end = true).
    { destruct d as [|a d]; [discriminate|]. destruct a as [[] [] [] [] [] [] [] []]; try exact H. destruct d; [exact H|discriminate]. }
    clear H. assert (Q : match parse_exponent r with Some _ => true | None => false end = true -> all_num r = true).
    { intros Q. destruct (parse_exponent r) as [x|] eqn:X; [|discriminate]. eapply exponent_num, X. }
    destruct r as [|a q]; [reflexivity|].
    destruct a as [[] [] [] [] [] [] [] []]; try (apply Q, Hr). clear Q.
    cbn [all_num]. destruct (span_digits q) as [f r'] eqn:E. apply span_all in E as (-> & F). rewrite all_num_app, (all_num_digits f F). cbn [andb].
    destruct f; [discriminate|]. destruct (parse_exponent r') as [x|] eqn:X; [|discriminate]. change (num_char "." && all_num r' = true)%bool.
    rewrite (exponent_num _ _ X). reflexivity. }
  destruct s as [|a s]; [discriminate|]. destruct a as [[] [] [] [] [] [] [] []]; try (apply G, H). cbn [all_num]. apply G in H. rewrite H. reflexivity.
Qed.
Definition stops (r : string) : Prop := match r with String a _ => num_char a = false | "" => True end.
Lemma span_num_app s r : all_num s = true -> stops r -> span_num (s ++ r) = (s, r).
Proof.
  induction s as [|a s IH]; intros A S; cbn [append all_num] in *.
  - destruct r as [|b r]; [reflexivity|]. cbn [span_num]. cbn in S. rewrite S. reflexivity.
  - apply andb_prop in A as (A & B). cbn [span_num]. rewrite A, (IH B S). reflexivity.
Qed.

(** ** Documents *)
Lemma out_induction (P : out -> Prop) :
  P ONull -> (forall b, P (OBool b)) -> (forall l, P (ONum l)) -> (forall e s, P (OStr e s)) -> (forall l, Forall P l -> P (OArr l)) ->
  (forall ms, Forall (fun m => P (snd m)) ms -> P (OObj ms)) -> forall o, P o.
Proof.
  intros Hn Hb Hu Hs Ha Ho. fix IH 1. intros [|b|l|e s|l|ms]; [exact Hn|apply Hb|apply Hu|apply Hs| |].
  - apply Ha. induction l as [|x l IHl]; constructor; [apply IH|exact IHl].
  - apply Ho. induction ms as [|[k x] ms IHl]; constructor; [apply IH|exact IHl].
Qed.

Definition safe_key (k : string) : Prop := str_text true k = k /\ to_utf8 k = k.
Fixpoint good_out (o : out) : Prop :=
  match o with
  | ONum lit => json_number lit = true
  | OArr l => list_all good_out l
  | OObj ms => list_all (fun m => safe_key (fst m) /\ good_out (snd m)) ms
  | _ => True
  end.

Definition more_text (p : bool) (d : nat) :=
  fix more (l : list out) : string :=
    match l with
    | [] => line p d ++ "]"
    | y :: l' => "," ++ line p (S d) ++ text p (S d) y ++ more l'
    end.
Definition more_members (p : bool) (d : nat) :=
  fix more (ms : list (string * out)) : string :=
    match ms with
    | [] => line p d ++ "}"
    | (k', y) :: ms' => "," ++ line p (S d) ++ quoted k' ++ colon p ++ text p (S d) y ++ more ms'
    end.
Lemma text_arr p d x l : text p d (OArr (x :: l)) = "[" ++ line p (S d) ++ text p (S d) x ++ more_text p d l.
Proof. reflexivity. Qed.
Lemma text_obj p d k x ms : text p d (OObj ((k, x) :: ms)) = "{" ++ line p (S d) ++ quoted k ++ colon p ++ text p (S d) x ++ more_members p d ms.
Proof. reflexivity. Qed.

Fixpoint need (o : out) : nat :=
  match o with
  | OArr l => S (fold_right (fun x n => S (need x + n)) 0%nat l)
  | OObj ms => S (fold_right (fun m n => S (need (snd m) + n)) 0%nat ms)
  | _ => 1%nat
  end.
Definition needs (l : list out) : nat := fold_right (fun x n => S (need x + n)) 0%nat l.
Definition needs_of (ms : list (string * out)) : nat := fold_right (fun m n => S (need (snd m) + n)) 0%nat ms.

Lemma skip_line p d s : skip_space (line p d ++ s) = skip_space s.
Proof.
  destruct p; [|reflexivity]. cbn [line append skip_space]. change (is_space newline) with true. cbv iota.
  induction d as [|d IH]; [reflexivity|]. cbn [spaces append skip_space]. change (is_space " ") with true. cbv iota. exact IH.
Qed.
Lemma value_line p d fuel s : parse_value fuel (line p d ++ s) = parse_value fuel s.
Proof. destruct fuel; [reflexivity|]. cbn [parse_value]. rewrite skip_line. reflexivity. Qed.
Lemma members_line p d fuel s : parse_members fuel (line p d ++ s) = parse_members fuel s.
Proof. destruct fuel; [reflexivity|]. cbn [parse_members]. rewrite skip_line. reflexivity. Qed.
Lemma elements_line p d fuel s : parse_elements fuel (line p d ++ s) = parse_elements fuel s.
Proof. destruct fuel; [reflexivity|]. cbn [parse_elements]. rewrite value_line. reflexivity. Qed.
Lemma value_colon fuel p s : parse_value fuel (match p with true => String " " s | false => s end) = parse_value fuel s.
Proof. destruct p, fuel; reflexivity. Qed.

(** The first character of a value. *)
Definition head_ok (a : ascii) : bool := negb (is_space a) && negb (Ascii.eqb a "]") && negb (Ascii.eqb a "}").
Lemma number_head lit : json_number lit = true -> exists a s, lit = String a s /\ head_ok a = true /\ (a = "-" \/ is_digit a = true)%char.
Proof.
  destruct lit as [|a s]; [discriminate|]. intros H. exists a, s. split; [reflexivity|].
  assert (D : a = "-"%char \/ is_digit a = true).
  { destruct a as [[] [] [] [] [] [] [] []]; try (left; reflexivity); try (right; reflexivity); unfold json_number in H; cbn in H; discriminate H. }
  split; [|exact D]. destruct D as [->|D]; [reflexivity|]. destruct a as [[] [] [] [] [] [] [] []]; try discriminate D; reflexivity.
Qed.
Lemma text_head p d o : good_out o -> exists a s, text p d o = String a s /\ head_ok a = true.
Proof.
  destruct o as [|b|lit|e s|[|x l]|[|[k x] ms]]; intros G; try (eexists _, _; split; [reflexivity|reflexivity]).
  - destruct b; eexists _, _; split; reflexivity.
  - destruct (number_head lit G) as (a & s & -> & H & _). exists a, s. split; [reflexivity|exact H].
Qed.
Lemma skip_head a s : head_ok a = true -> skip_space (String a s) = String a s.
Proof. unfold head_ok. intros H. cbn [skip_space]. destruct (is_space a); [discriminate|reflexivity]. Qed.

Lemma stops_line p d a s : num_char a = false -> stops (line p d ++ String a s).
Proof. destruct p; [reflexivity|]. intros H. exact H. Qed.
Lemma stops_more p d l r : stops (more_text p d l ++ r).
Proof. destruct l; cbn [more_text]; [rewrite append_assoc; apply stops_line|]; reflexivity. Qed.
Lemma stops_members p d ms r : stops (more_members p d ms ++ r).
Proof. destruct ms as [|[k y] ms]; cbn [more_members]; [rewrite append_assoc; apply stops_line|]; reflexivity. Qed.

Definition reads (o : out) : Prop :=
  good_out o -> forall p d fuel r, (need o <= fuel)%nat -> stops r -> parse_value fuel (text p d o ++ r) = Some (erase o, r).

Lemma read_elements p d l : forall x fuel r, reads x -> good_out x -> Forall reads l -> list_all good_out l -> (S (need x + needs l) <= fuel)%nat ->
  parse_elements fuel (text p (S d) x ++ more_text p d l ++ r) = Some (erase x :: map erase l, r)%list.
Proof.
  induction l as [|y l IH]; intros x fuel r Rx Gx Rl Gl F; (destruct fuel as [|fuel]; [cbn in F; lia|]); cbn [parse_elements];
    (rewrite (Rx Gx p (S d) fuel) by (try apply stops_more; cbn in F; lia)); cbn [more_text].
  - rewrite append_assoc, skip_line. reflexivity.
  - cbn [append skip_space]. change (is_space ",") with false. cbv iota. rewrite !append_assoc, elements_line. apply Forall_cons_iff in Rl as (Ry & Rl). destruct Gl as (Gy & Gl).
    rewrite IH; trivial. cbn [needs fold_right] in F. fold (needs l) in F. lia.
Qed.
Lemma quoted_app k r : quoted k ++ r = String dquote (k ++ String dquote r).
Proof. unfold quoted. cbn [append]. rewrite append_assoc. reflexivity. Qed.
Lemma parse_key k r : safe_key k -> parse_string (k ++ String dquote r) = Some (k, r).
Proof. intros (A & B). rewrite <- A at 1. rewrite parse_quoted, B. reflexivity. Qed.
Lemma skip_colon p r : exists r', skip_space (colon p ++ r) = String ":" r' /\ forall fuel, parse_value fuel r' = parse_value fuel r.
Proof. destruct p; eexists; (split; [reflexivity|]); intros fuel; [destruct fuel|]; reflexivity. Qed.
Lemma read_members p d ms : forall k x fuel r, safe_key k -> reads x -> good_out x -> Forall (fun m => reads (snd m)) ms ->
  list_all (fun m => safe_key (fst m) /\ good_out (snd m)) ms -> (S (need x + needs_of ms) <= fuel)%nat ->
  parse_members fuel (quoted k ++ colon p ++ text p (S d) x ++ more_members p d ms ++ r) =
    Some ((k, erase x) :: map (fun m => (fst m, erase (snd m))) ms, r)%list.
Proof.
  induction ms as [|[k' y] ms IH]; intros k x fuel r Sk Rx Gx Rl Gl F; (destruct fuel as [|fuel]; [cbn in F; lia|]); cbn [parse_members]; rewrite quoted_app;
    change (skip_space (String dquote ?z)) with (String dquote z); cbv iota; change (negb (Ascii.eqb dquote dquote)) with false; cbv iota;
    rewrite parse_key by exact Sk; match goal with |- context [skip_space (colon p ++ ?z)] => destruct (skip_colon p z) as (r' & -> & V) end; cbv iota beta;
    rewrite V, (Rx Gx p (S d) fuel) by (try apply stops_members; cbn in F; lia); cbn [more_members].
  - rewrite append_assoc, skip_line. reflexivity.
  - cbn [append skip_space]. change (is_space ",") with false. cbv iota. rewrite !append_assoc, members_line. apply Forall_cons_iff in Rl as (Ry & Rl). destruct Gl as ((Sy & Gy) & Gl).
    cbn [fst snd] in *. rewrite IH; trivial. cbn [needs_of fold_right snd] in F. fold (needs_of ms) in F. lia.
Qed.

Lemma all_reads o : reads o.
Proof.
  induction o as [|b|lit|e s|l IH|ms IH] using out_induction; intros G p d fuel r F S; (destruct fuel as [|fuel]; [cbn in F; lia|]).
  - reflexivity.
  - destruct b; reflexivity.
  - cbn [text]. destruct (number_head lit G) as (a & s & -> & H & D). cbn [append parse_value]. rewrite skip_head by exact H. cbv iota.
    change (String a (s ++ r)) with (String a s ++ r). rewrite span_num_app by (try apply number_num; assumption). cbn [good_out] in G. rewrite G.
    destruct D as [->|D]; [reflexivity|]. destruct a as [[] [] [] [] [] [] [] []]; try discriminate D; reflexivity.
  - cbn [text]. rewrite quoted_app. cbn [parse_value]. change (skip_space (String dquote ?z)) with (String dquote z). cbv iota.
    change (Ascii.eqb dquote "{") with false. change (Ascii.eqb dquote "[") with false. change (Ascii.eqb dquote dquote) with true. cbv iota.
    rewrite parse_quoted. reflexivity.
  - destruct l as [|x l]; [reflexivity|]. rewrite text_arr, !append_assoc. cbn [append parse_value]. change (skip_space (String "[" ?z)) with (String "[" z). cbv iota.
    change (Ascii.eqb "[" "{") with false. change (Ascii.eqb "[" "[") with true. cbv iota. rewrite skip_line, elements_line.
    apply Forall_cons_iff in IH as (Rx & Rl). destruct G as (Gx & Gl). rewrite (read_elements p d l x fuel r) by (trivial; cbn [need fold_right] in F; unfold needs; lia).
    destruct (text_head p (Datatypes.S d) x Gx) as (a & s & E & H). rewrite E. cbn [append]. rewrite skip_head by exact H.
    destruct a as [[] [] [] [] [] [] [] []]; try reflexivity. discriminate H.
  - destruct ms as [|[k x] ms]; [reflexivity|]. rewrite text_obj, !append_assoc. cbn [append parse_value]. change (skip_space (String "{" ?z)) with (String "{" z). cbv iota.
    change (Ascii.eqb "{" "{") with true. cbv iota. rewrite skip_line, members_line.
    apply Forall_cons_iff in IH as (Rx & Rl). destruct G as ((Sk & Gx) & Gl). cbn [fst snd] in *.
    rewrite (read_members p d ms k x fuel r) by (trivial; cbn [need fold_right snd] in F; unfold needs_of; lia).
    rewrite quoted_app. reflexivity.
Qed.
