(** Memory, pointers and goroutines: the model of /repo/copy.go and /repo/convert.go as
    programs that load, store and allocate. ConvertModel.v is the same code on values;
    HeapProofs.v shows that the programs compute what ConvertModel.v says, that they never
    dereference nil and that they write to nothing but memory they allocated. *)
From Verif Require Import Base Types Univ TypeTable Consts Version ConvertModel GobModel.
Local Open Scope string_scope.

(** ** Memory *)

(** An address: the goroutine that allocated it (0: the caller, before any EncodeVersion)
    and a serial number. *)
Notation addr := (nat * nat)%type.

(** The contents of memory. A struct is stored inline; a slice refers to the cell with its
    elements (stored like a struct). Simplified: slices always cover their whole array. *)
Inductive hval :=
| HStr (s : string)
| HInt (z : Z)
| HBool (b : bool)
| HFlt (f : gofloat)
| HPtr (p : option addr)
| HSlice (s : option addr)
| HStruct (fs : list hval).

Definition heap := addr -> option hval.
Definition addr_eqb (a b : addr) : bool := (Nat.eqb (fst a) (fst b) && Nat.eqb (snd a) (snd b))%bool.
Definition upd (h : heap) (a : addr) (c : hval) : heap := fun b => if addr_eqb a b then Some c else h b.

(** A place inside a cell: the indices of fields and elements to follow. *)
Notation loc := (addr * list nat)%type.
Fixpoint get_path (c : hval) (p : list nat) : option hval :=
  match p with
  | [] => Some c
  | i :: p' => match c with HStruct cs => match nth_error cs i with Some x => get_path x p' | None => None end | _ => None end
  end.
Fixpoint replace_nth {A} (i : nat) (x : A) (l : list A) : list A :=
  match l, i with [], _ => [] | _ :: l', O => x :: l' | y :: l', S i' => y :: replace_nth i' x l' end.
Fixpoint put_path (c : hval) (p : list nat) (v : hval) : hval :=
  match p with
  | [] => v
  | i :: p' => match c with HStruct cs => match nth_error cs i with Some x => HStruct (replace_nth i (put_path x p' v) cs) | None => c end | _ => c end
  end.

(** ** Programs *)

Inductive prog (A : Type) :=
| Ret (a : A)
| Load (l : loc) (k : hval -> prog A)
| Store (l : loc) (v : hval) (k : prog A)
| Alloc (c : hval) (k : addr -> prog A)
| Crash                     (* a panic: nil dereference, index out of range *)
| Loop.                     (* the bound on the recursion depth was too small *)
Arguments Ret {A} a.
Arguments Load {A} l k.
Arguments Store {A} l v k.
Arguments Alloc {A} c k.
Arguments Crash {A}.
Arguments Loop {A}.

Fixpoint and_then {A B} (P : prog A) (k : A -> prog B) : prog B :=
  match P with
  | Ret a => k a
  | Load l k' => Load l (fun v => and_then (k' v) k)
  | Store l v P' => Store l v (and_then P' k)
  | Alloc c k' => Alloc c (fun a => and_then (k' a) k)
  | Crash => Crash
  | Loop => Loop
  end.
Declare Scope prog_scope.
Notation "x <- P ;; Q" := (and_then P (fun x => Q)) (at level 62, P at next level, right associativity) : prog_scope.
Notation "P ;; Q" := (and_then P (fun _ : unit => Q)) (at level 62, right associativity) : prog_scope.
Local Open Scope prog_scope.

(** One step of goroutine [t]. Nothing stops a program from writing to memory of others. *)
Definition step {A} (t : nat) (P : prog A) (n : nat) (h : heap) : option (prog A * nat * heap) :=
  match P with
  | Load (a, p) k => match h a with
                     | Some c => match get_path c p with Some v => Some (k v, n, h) | None => Some (Crash, n, h) end
                     | None => Some (Crash, n, h)
                     end
  | Store (a, p) v P' => match h a with
                         | Some c => match get_path c p with Some _ => Some (P', n, upd h a (put_path c p v)) | None => Some (Crash, n, h) end
                         | None => Some (Crash, n, h)
                         end
  | Alloc c k => Some (k (t, n), S n, upd h (t, n) c)
  | Ret _ | Crash | Loop => None
  end.

(** Goroutines 1, 2, ... with their allocation counters; a schedule names the goroutine
    that takes the next step. *)
Definition pool A := list (prog A * nat).
Definition pool_step {A} (t : nat) (ps : pool A) (h : heap) : pool A * heap :=
  match nth_error ps t with
  | Some (P, n) => match step (S t) P n h with Some (P', n', h') => (replace_nth t (P', n') ps, h') | None => (ps, h) end
  | None => (ps, h)
  end.
Fixpoint run_pool {A} (schedule : list nat) (ps : pool A) (h : heap) : pool A * heap :=
  match schedule with
  | [] => (ps, h)
  | t :: schedule' => let (ps', h') := pool_step t ps h in run_pool schedule' ps' h'
  end.

(** ** Statements *)

(** x.F, for a struct with the given fields *)
Fixpoint ix (fs : list field) (name : string) : nat :=
  match fs with [] => O | f :: fs' => if String.eqb (f_name f) name then O else S (ix fs' name) end.
Definition fld (l : loc) (i : nat) : loc := (fst l, (snd l ++ [i])%list).

Definition assign (l : loc) (v : hval) : prog unit := Store l v (Ret tt).
Definition nil_ptr : hval := HPtr None.
(** The value of a pointer variable; interior pointers only occur as local variables. *)
Definition load_ptr (l : loc) : prog (option loc) :=
  Load l (fun v => match v with HPtr (Some a) => Ret (Some (a, [])) | HPtr None => Ret None | _ => Crash end).
Definition star (p : option loc) : prog loc := match p with Some l => Ret l | None => Crash end.
(** *x.F *)
Definition deref (l : loc) : prog loc := p <- load_ptr l;; star p.
Definition via (l : loc) (body : loc -> prog unit) : prog unit := e <- deref l;; body e.
Definition load_str (l : loc) : prog string := Load l (fun v => match v with HStr s => Ret s | _ => Crash end).
(** Conditions: x.F != nil; test(x.F); a condition on the struct x.F points to; &&; !. *)
Definition is_set (l : loc) : prog bool := p <- load_ptr l;; Ret (match p with Some _ => true | None => false end).
Definition str_is (test : string -> bool) (l : loc) : prog bool := s <- load_str l;; Ret (test s).
Definition at_ (l : loc) (cond : loc -> prog bool) : prog bool := e <- deref l;; cond e.
Definition both (c d : prog bool) : prog bool := b <- c;; if b then d else Ret false.
Definition not_ (c : prog bool) : prog bool := b <- c;; Ret (negb b).
(** if cond { body }, and with an else *)
Definition ifelse (cond : prog bool) (body other : prog unit) : prog unit := b <- cond;; if b then body else other.
Definition ifp (cond : prog bool) (body : prog unit) : prog unit := ifelse cond body (Ret tt).
(** if x.F != nil { body }, the body talking about the variable x.F *)
Definition guarded (l : loc) (body : loc -> prog unit) : prog unit := ifp (is_set l) (body l).
Definition whenp (b : bool) (P : prog unit) : prog unit := if b then P else Ret tt.
(** The start of most functions: if p == nil { return } *)
Definition unless_nil (p : option loc) (body : loc -> prog unit) : prog unit := match p with Some l => body l | None => Ret tt end.
(** f(x.F) *)
Definition call (f : option loc -> prog unit) (l : loc) : prog unit := p <- load_ptr l;; f p.

(** for i := range s { body(&s[i]) } for a slice variable at [l] *)
Fixpoint loop (i n : nat) (body : nat -> prog unit) : prog unit :=
  match n with O => Ret tt | S n' => body i;; loop (S i) n' body end.
Definition elements (l : loc) : prog (option (addr * nat)) :=
  Load l (fun v => match v with
                   | HSlice None => Ret None
                   | HSlice (Some a) => Load (a, []) (fun c => match c with HStruct cs => Ret (Some (a, List.length cs)) | _ => Crash end)
                   | _ => Crash
                   end).
Definition range (l : loc) (body : loc -> prog unit) : prog unit :=
  s <- elements l;; match s with Some (a, n) => loop 0 n (fun i => body (a, [i])) | None => Ret tt end.
(** if x.F != nil { for i := range *x.F { body } }. Simplified: Go evaluates x.F again for
    each element of x.F; no body assigns to x.F. *)
Definition for_each (l : loc) (body : loc -> prog unit) : prog unit := guarded l (fun l => via l (fun s => range s body)).

(** A loop that appends to a local slice: what the bodies return. *)
Fixpoint gather (i n : nat) (body : nat -> prog (option hval)) : prog (list hval) :=
  match n with
  | O => Ret []
  | S n' => o <- body i;; l <- gather (S i) n' body;; Ret (match o with Some v => v :: l | None => l end)
  end.
Definition collect (l : loc) (body : loc -> prog (option hval)) : prog (list hval) :=
  s <- elements l;; match s with Some (a, n) => gather 0 n (fun i => body (a, [i])) | None => Ret [] end.
(** The local slice becomes a value: a fresh array. Simplified: append may already have
    moved the slice to bigger arrays on the way, none of which anyone else has seen. *)
Definition new_slice (vs : list hval) : prog hval := Alloc (HStruct vs) (fun a => Ret (HSlice (Some a))).

Definition set_nil (l : loc) : prog unit := assign l nil_ptr.
Definition clear (l : loc) : prog unit := assign l (HStr "").

(** ** /repo/convert.go *)
Section Convert.
  Variable sv : SpecVersion.
  Notation below v := (whenp (sv_lt sv v)).

  (** /repo/convert.go:431-439 *)
  Definition hConvertOrganizationalContact (p : option loc) : prog unit :=
    unless_nil p (fun c => below SpecVersion1_5 (clear (fld c (ix fields_OrganizationalContact "BOMRef")))).
  (** /repo/convert.go:411-429 *)
  Definition hConvertOrganizationalEntity (p : option loc) : prog unit :=
    unless_nil p (fun org =>
      below SpecVersion1_5 (
        clear (fld org (ix fields_OrganizationalEntity "BOMRef"));;
        for_each (fld org (ix fields_OrganizationalEntity "Contact")) (fun c => hConvertOrganizationalContact (Some c)));;
      below SpecVersion1_6 (set_nil (fld org (ix fields_OrganizationalEntity "Address")))).
  (** /repo/convert.go:271-286 *)
  Definition hConvertDataClassifications (p : option loc) : prog unit :=
    unless_nil p (fun ds => below SpecVersion1_6 (range ds (fun d =>
      clear (fld d (ix fields_DataClassification "Name"));;
      clear (fld d (ix fields_DataClassification "Description"));;
      set_nil (fld d (ix fields_DataClassification "Governance"));;
      set_nil (fld d (ix fields_DataClassification "Source"));;
      set_nil (fld d (ix fields_DataClassification "Destination"))))).
  (** /repo/convert.go:289-309 *)
  Definition hConvertExternalReferences (p : option loc) : prog unit :=
    unless_nil p (fun rs => range rs (fun r =>
      ifp (str_is (fun t => negb (supportsExternalReferenceType sv t)) (fld r (ix fields_ExternalReference "Type")))
        (assign (fld r (ix fields_ExternalReference "Type")) (HStr ERTypeOther));;
      below SpecVersion1_3 (set_nil (fld r (ix fields_ExternalReference "Hashes")));;
      below SpecVersion1_7 (set_nil (fld r (ix fields_ExternalReference "Properties"))))).
  (** *s = nil or *s = converted *)
  Definition store_collected (s : loc) (vs : list hval) : prog unit :=
    match vs with [] => assign s (HSlice None) | _ => v <- new_slice vs;; assign s v end.
  (** /repo/convert.go:313-331 *)
  Definition hConvertHashes (p : option loc) : prog unit :=
    unless_nil p (fun hs =>
      vs <- collect hs (fun h =>
        keep <- str_is (supportsHashAlgorithm sv) (fld h (ix fields_Hash "Algorithm"));;
        if keep then Load h (fun v => Ret (Some v)) else Ret None);;
      store_collected hs vs).
  (** /repo/convert.go:344-352 *)
  Definition hConvertLicenseChoice_1_0 (choice : loc) : prog unit :=
    guarded (fld choice (ix fields_LicenseChoice "License")) (fun license =>
       ifelse (both (at_ license (fun l => str_is (fun s => str_eqb s "") (fld l (ix fields_License "ID"))))
                    (at_ license (fun l => str_is (fun s => str_eqb s "") (fld l (ix fields_License "Name")))))
         (set_nil license)
         (via license (fun l => set_nil (fld l (ix fields_License "Text")));;
          via license (fun l => clear (fld l (ix fields_License "URL")))));;
    clear (fld choice (ix fields_LicenseChoice "Expression")).
  (** /repo/convert.go:341-362 *)
  Definition hConvertLicenses_1_0 (ls : loc) : prog unit :=
    vs <- collect ls (fun choice =>
      hConvertLicenseChoice_1_0 choice;;
      keep <- is_set (fld choice (ix fields_LicenseChoice "License"));;
      if keep then Load choice (fun v => Ret (Some v)) else Ret None);;
    store_collected ls vs.
  (** /repo/convert.go:366-373 *)
  Definition hConvertLicenses_1_4 (ls : loc) : prog unit :=
    range ls (fun choice =>
      guarded (fld choice (ix fields_LicenseChoice "License")) (fun license =>
        via license (fun l => clear (fld l (ix fields_License "BOMRef")));;
        via license (fun l => set_nil (fld l (ix fields_License "Licensing")));;
        via license (fun l => set_nil (fld l (ix fields_License "Properties"))))).
  (** /repo/convert.go:389-397 *)
  Definition hConvertParty (license : loc) (name : string) : prog unit :=
    ifp (at_ license (fun l => at_ (fld l (ix fields_License "Licensing")) (fun g => is_set (fld g (ix fields_Licensing name)))))
      (via license (fun l => via (fld l (ix fields_License "Licensing")) (fun g => via (fld g (ix fields_Licensing name)) (fun o =>
         call hConvertOrganizationalEntity (fld o (ix fields_OrganizationalEntityOrContact "Organization")))))).
  (** /repo/convert.go:377-398 *)
  Definition hConvertLicenses_1_5 (ls : loc) : prog unit :=
    range ls (fun choice =>
      guarded (fld choice (ix fields_LicenseChoice "License")) (fun license =>
        via license (fun l => clear (fld l (ix fields_License "Acknowledgement")));;
        ifp (at_ license (fun l => is_set (fld l (ix fields_License "Licensing"))))
          (hConvertParty license "Licensor";; hConvertParty license "Licensee";; hConvertParty license "Purchaser"))).
  (** /repo/convert.go:402-407 *)
  Definition hConvertLicenses_1_6 (ls : loc) : prog unit :=
    range ls (fun choice =>
      set_nil (fld choice (ix fields_LicenseChoice "ExpressionDetails"));;
      set_nil (fld choice (ix fields_LicenseChoice "Licensing"));;
      set_nil (fld choice (ix fields_LicenseChoice "Properties"))).
  (** /repo/convert.go:335-409 *)
  Definition hConvertLicenses (p : option loc) : prog unit :=
    unless_nil p (fun ls =>
      below SpecVersion1_1 (hConvertLicenses_1_0 ls);;
      below SpecVersion1_5 (hConvertLicenses_1_4 ls);;
      below SpecVersion1_6 (hConvertLicenses_1_5 ls);;
      below SpecVersion1_7 (hConvertLicenses_1_6 ls)).

  (** /repo/convert.go:225-233; [identity] is the variable c.Evidence.Identity *)
  Definition hConvertIdentityChoice (identity : loc) : prog unit :=
    ifp (both (is_set identity) (at_ identity (fun i => is_set (fld i (ix fields_EvidenceIdentityChoice "Identities")))))
      (i <- deref identity;;
       ids <- deref (fld i (ix fields_EvidenceIdentityChoice "Identities"));;
       s <- elements ids;;
       match s with
       | Some (a, S _) =>
           Load (a, [0]) (fun first => Alloc first (fun f =>
             Alloc (HStruct [HPtr (Some f); nil_ptr]) (fun c => assign identity (HPtr (Some c)))))
       | _ => set_nil identity
       end).
  (** /repo/convert.go:205-251; the component's Evidence is at [ev] *)
  Definition hConvertEvidence (c : loc) : prog unit :=
    guarded (fld c (ix fields_Component "Evidence")) (fun ev =>
      if sv_lt sv SpecVersion1_3 then set_nil ev
      else if sv_lt sv SpecVersion1_5 then
        (via ev (fun e => set_nil (fld e (ix fields_Evidence "Identity")));;
         via ev (fun e => set_nil (fld e (ix fields_Evidence "Occurrences")));;
         via ev (fun e => set_nil (fld e (ix fields_Evidence "Callstack"))))
      else
        (below SpecVersion1_6 (
           via ev (fun e => hConvertIdentityChoice (fld e (ix fields_Evidence "Identity")));;
           ifp (both (at_ ev (fun e => is_set (fld e (ix fields_Evidence "Identity"))))
                     (at_ ev (fun e => at_ (fld e (ix fields_Evidence "Identity")) (fun i => is_set (fld i (ix fields_EvidenceIdentityChoice "Identity"))))))
             (via ev (fun e => via (fld e (ix fields_Evidence "Identity")) (fun i => via (fld i (ix fields_EvidenceIdentityChoice "Identity"))
                (fun x => clear (fld x (ix fields_EvidenceIdentity "ConcludedValue"))))));;
           via ev (fun e => for_each (fld e (ix fields_Evidence "Occurrences")) (fun occ =>
             set_nil (fld occ (ix fields_EvidenceOccurrence "Line"));;
             set_nil (fld occ (ix fields_EvidenceOccurrence "Offset"));;
             clear (fld occ (ix fields_EvidenceOccurrence "Symbol"));;
             clear (fld occ (ix fields_EvidenceOccurrence "AdditionalContext")))));;
         via ev (fun e => call hConvertLicenses (fld e (ix fields_Evidence "Licenses"))))).
  (** /repo/convert.go:441-451 *)
  Definition hConvertModelCard (c : loc) : prog unit :=
    guarded (fld c (ix fields_Component "ModelCard")) (fun card => below SpecVersion1_6 (
      ifp (at_ card (fun m => is_set (fld m (ix fields_MLModelCard "Considerations"))))
        (via card (fun m => via (fld m (ix fields_MLModelCard "Considerations")) (fun k =>
           set_nil (fld k (ix fields_MLModelCardConsiderations "EnvironmentalConsiderations"))))))).
  (** /repo/convert.go:453-510 *)
  Definition hConvertCryptoProperties (p : option loc) : prog unit :=
    unless_nil p (fun cp =>
      let alg := fld cp (ix fields_CryptoProperties "AlgorithmProperties") in
      let proto := fld cp (ix fields_CryptoProperties "ProtocolProperties") in
      let cert := fld cp (ix fields_CryptoProperties "CertificateProperties") in
      let rel := fld cp (ix fields_CryptoProperties "RelatedCryptoMaterialProperties") in
      guarded alg (fun alg =>
        below SpecVersion1_7 (
          via alg (fun a => clear (fld a (ix fields_CryptoAlgorithmProperties "AlgorithmFamily")));;
          via alg (fun a => clear (fld a (ix fields_CryptoAlgorithmProperties "EllipticCurve"))));;
        ifp (at_ alg (fun a => str_is (fun x => negb (supportsCryptoPrimitive sv x)) (fld a (ix fields_CryptoAlgorithmProperties "Primitive"))))
          (via alg (fun a => clear (fld a (ix fields_CryptoAlgorithmProperties "Primitive")))));;
      ifp (both (is_set proto)
                (at_ proto (fun q => str_is (fun x => negb (supportsCryptoProtocolType sv x)) (fld q (ix fields_CryptoProtocolProperties "Type")))))
        (via proto (fun q => clear (fld q (ix fields_CryptoProtocolProperties "Type"))));;
      guarded cert (fun cert => below SpecVersion1_7 (
        let on_cert name := via cert (fun c => clear (fld c (ix fields_CertificateProperties name))) in
        let drop_cert name := via cert (fun c => set_nil (fld c (ix fields_CertificateProperties name))) in
        on_cert "SerialNumber";; on_cert "CertificateFileExtension";; drop_cert "Fingerprint";; drop_cert "CertificateState";;
        drop_cert "CertificateExtensions";; drop_cert "RelatedCryptographicAssets";; on_cert "CreationDate";; on_cert "ActivationDate";;
        on_cert "DeactivationDate";; on_cert "RevocationDate";; on_cert "DestructionDate"));;
      guarded rel (fun rel => below SpecVersion1_7 (
        via rel (fun r => set_nil (fld r (ix fields_RelatedCryptoMaterialProperties "Fingerprint")));;
        via rel (fun r => set_nil (fld r (ix fields_RelatedCryptoMaterialProperties "RelatedCryptographicAssets")))));;
      guarded proto (fun proto =>
        below SpecVersion1_7 (via proto (fun q => set_nil (fld q (ix fields_CryptoProtocolProperties "RelatedCryptographicAssets"))));;
        via proto (fun q => for_each (fld q (ix fields_CryptoProtocolProperties "CipherSuites")) (fun cs =>
          below SpecVersion1_7 (
            set_nil (fld cs (ix fields_CipherSuite "TLSGroups"));;
            set_nil (fld cs (ix fields_CipherSuite "TLSSignatureSchemes"))))))).

  (** /repo/convert.go:141-143 *)
  Definition hDefaultModified (m : loc) : prog unit :=
    ifp (not_ (is_set m)) (Alloc (HBool false) (fun a => assign m (HPtr (Some a)))).
  (** /repo/convert.go:136-203 *)
  Definition hComponentConverter (c : loc) : prog unit :=
    let f name := fld c (ix fields_Component name) in
    below SpecVersion1_1 (
      clear (f "BOMRef");; set_nil (f "ExternalReferences");;
      hDefaultModified (f "Modified");;
      set_nil (f "Pedigree"));;
    below SpecVersion1_2 (
      clear (f "Author");; clear (f "MIMEType");;
      guarded (f "Pedigree") (fun ped => via ped (fun p => set_nil (fld p (ix fields_Pedigree "Patches"))));;
      set_nil (f "Supplier");; set_nil (f "SWID"));;
    below SpecVersion1_3 (set_nil (f "Properties"));;
    below SpecVersion1_4 (
      set_nil (f "ReleaseNotes");;
      ifp (str_is (fun s => str_eqb s "") (f "Version")) (assign (f "Version") (HStr "0.0.0")));;
    below SpecVersion1_5 (set_nil (f "ModelCard");; set_nil (f "Data"));;
    below SpecVersion1_6 (
      set_nil (f "SWHID");; set_nil (f "OmniborID");; set_nil (f "Manufacturer");; set_nil (f "Authors");; set_nil (f "Tags");;
      set_nil (f "CryptoProperties"));;
    below SpecVersion1_7 (set_nil (f "IsExternal");; set_nil (f "PatentAssertions");; clear (f "VersionRange"));;
    ifp (str_is (fun t => negb (supportsComponentType sv t)) (f "Type")) (assign (f "Type") (HStr ComponentTypeApplication));;
    call hConvertExternalReferences (f "ExternalReferences");;
    call hConvertHashes (f "Hashes");;
    call hConvertLicenses (f "Licenses");;
    hConvertEvidence c;;
    hConvertModelCard c;;
    call hConvertCryptoProperties (f "CryptoProperties");;
    ifp (str_is (fun s => negb (supportsScope sv s)) (f "Scope")) (clear (f "Scope")).

  (** /repo/convert.go:704-733; [fuel] bounds the depth of the recursion *)
  Fixpoint hRecurseComponent (fuel : nat) (p : option loc) : prog unit :=
    match fuel with
    | O => Loop
    | S fuel =>
        unless_nil p (fun c =>
          hComponentConverter c;;
          for_each (fld c (ix fields_Component "Components")) (fun d => hRecurseComponent fuel (Some d));;
          guarded (fld c (ix fields_Component "Pedigree")) (fun ped =>
            via ped (fun q => for_each (fld q (ix fields_Pedigree "Ancestors")) (fun d => hRecurseComponent fuel (Some d)));;
            via ped (fun q => for_each (fld q (ix fields_Pedigree "Descendants")) (fun d => hRecurseComponent fuel (Some d)));;
            via ped (fun q => for_each (fld q (ix fields_Pedigree "Variants")) (fun d => hRecurseComponent fuel (Some d)))))
    end.

  (** /repo/convert.go:579-604 *)
  Definition hServiceConverter (s : loc) : prog unit :=
    let f name := fld s (ix fields_Service name) in
    below SpecVersion1_3 (set_nil (f "Properties"));;
    below SpecVersion1_4 (set_nil (f "ReleaseNotes"));;
    below SpecVersion1_5 (clear (f "TrustZone"));;
    below SpecVersion1_6 (call hConvertDataClassifications (f "Data"));;
    below SpecVersion1_7 (set_nil (f "PatentAssertions"));;
    call hConvertOrganizationalEntity (f "Provider");;
    call hConvertExternalReferences (f "ExternalReferences").
  (** /repo/convert.go:735-747 *)
  Fixpoint hRecurseService (fuel : nat) (p : option loc) : prog unit :=
    match fuel with
    | O => Loop
    | S fuel =>
        unless_nil p (fun s =>
          hServiceConverter s;;
          for_each (fld s (ix fields_Service "Services")) (fun d => hRecurseService fuel (Some d)))
    end.

  (** /repo/convert.go:671-687 *)
  Definition hComponentToTool (c : loc) : prog (option hval) :=
    let f name := fld c (ix fields_Component name) in
    author <- load_str (f "Author");;
    Load (f "Name") (fun name => Load (f "Version") (fun version =>
    Load (f "Hashes") (fun hashes => Load (f "ExternalReferences") (fun refs =>
    supplied <- is_set (f "Supplier");;
    vendor <- (if supplied then s <- deref (f "Supplier");; load_str (fld s (ix fields_OrganizationalEntity "Name")) else Ret author);;
    Ret (Some (HStruct [HStr vendor; name; version; hashes; refs])))))).
  (** /repo/convert.go:690-702 *)
  Definition hServiceToTool (s : loc) : prog (option hval) :=
    let f name := fld s (ix fields_Service name) in
    Load (f "Name") (fun name => Load (f "Version") (fun version => Load (f "ExternalReferences") (fun refs =>
    provided <- is_set (f "Provider");;
    vendor <- (if provided then o <- deref (f "Provider");; load_str (fld o (ix fields_OrganizationalEntity "Name")) else Ret "");;
    Ret (Some (HStruct [HStr vendor; name; version; nil_ptr; refs]))))).
  (** /repo/convert.go:657-668 *)
  Definition hConvertTool (p : option loc) : prog unit :=
    unless_nil p (fun t =>
      below SpecVersion1_4 (set_nil (fld t (ix fields_Tool "ExternalReferences")));;
      call hConvertExternalReferences (fld t (ix fields_Tool "ExternalReferences"));;
      call hConvertHashes (fld t (ix fields_Tool "Hashes"))).

  (** if x.F != nil { for ... { append } } *)
  Definition gather_from (l : loc) (body : loc -> prog (option hval)) : prog (list hval) :=
    p <- load_ptr l;; match p with Some _ => s <- deref l;; collect s body | None => Ret [] end.
  (** /repo/convert.go:613-640 *)
  Definition hFlattenTools (t : loc) : prog unit :=
    let f name := fld t (ix fields_ToolsChoice name) in
    cs <- gather_from (f "Components") hComponentToTool;;
    ifp (is_set (f "Components")) (set_nil (f "Components"));;
    ss <- gather_from (f "Services") hServiceToTool;;
    ifp (is_set (f "Services")) (set_nil (f "Services"));;
    match (cs ++ ss)%list with
    | [] => Ret tt
    | converted =>
        p <- load_ptr (f "Tools");;
        match p with
        | None => v <- new_slice converted;; Alloc v (fun a => assign (f "Tools") (HPtr (Some a)))
        | Some _ =>
            via (f "Tools") (fun s =>
              old <- collect s (fun x => Load x (fun v => Ret (Some v)));;
              v <- new_slice (old ++ converted)%list;; assign s v)
        end
    end.
  (** /repo/convert.go:607-654 *)
  Definition hConvertTools (p : option loc) : prog unit :=
    unless_nil p (fun t =>
      below SpecVersion1_5 (hFlattenTools t);;
      for_each (fld t (ix fields_ToolsChoice "Services")) (fun s => call hConvertOrganizationalEntity (fld s (ix fields_Service "Provider")));;
      for_each (fld t (ix fields_ToolsChoice "Tools")) (fun x => hConvertTool (Some x))).

  (** /repo/convert.go:518-555, the loop body *)
  Definition hConvertVulnerability (v : loc) : prog unit :=
    let f name := fld v (ix fields_Vulnerability name) in
    call hConvertTools (f "Tools");;
    below SpecVersion1_5 (
      set_nil (f "ProofOfConcept");; clear (f "Rejected");; clear (f "Workaround");;
      guarded (f "Analysis") (fun an =>
        via an (fun a => clear (fld a (ix fields_VulnerabilityAnalysis "FirstIssued")));;
        via an (fun a => clear (fld a (ix fields_VulnerabilityAnalysis "LastUpdated")))));;
    below SpecVersion1_6 (guarded (f "Credits") (fun credits =>
      via credits (fun k => for_each (fld k (ix fields_Credits "Organizations")) (fun o => hConvertOrganizationalEntity (Some o)));;
      via credits (fun k => for_each (fld k (ix fields_Credits "Individuals")) (fun o => hConvertOrganizationalContact (Some o)))));;
    for_each (f "Ratings") (fun r =>
      ifp (str_is (fun m => negb (supportsScoringMethod sv m)) (fld r (ix fields_VulnerabilityRating "Method")))
        (assign (fld r (ix fields_VulnerabilityRating "Method")) (HStr ScoringMethodOther))).
  (** /repo/convert.go:512-557 *)
  Definition hConvertVulnerabilities (p : option loc) : prog unit := unless_nil p (fun s => range s hConvertVulnerability).
  (** /repo/convert.go:259-266, the loop body *)
  Definition hConvertComposition (c : loc) : prog unit :=
    below SpecVersion1_5 (
      clear (fld c (ix fields_Composition "BOMRef"));; set_nil (fld c (ix fields_Composition "Vulnerabilities")));;
    ifp (str_is (fun a => negb (supportsCompositionAggregate sv a)) (fld c (ix fields_Composition "Aggregate")))
      (assign (fld c (ix fields_Composition "Aggregate")) (HStr CompositionAggregateUnknown)).
  (** /repo/convert.go:253-268 *)
  Definition hConvertCompositions (p : option loc) : prog unit := unless_nil p (fun s => range s hConvertComposition).
  (** /repo/convert.go:559-576. [ann] is a copy of the element; its Annotator is the same pointer. *)
  Definition hConvertAnnotations (fuel : nat) (p : option loc) : prog unit :=
    unless_nil p (fun l => below SpecVersion1_6 (range l (fun ann =>
      guarded (fld ann (ix fields_Annotation "Annotator")) (fun a =>
        via a (fun x => call hConvertOrganizationalEntity (fld x (ix fields_Annotator "Organization")));;
        via a (fun x => call (hRecurseService fuel) (fld x (ix fields_Annotator "Service"))))))).

  (** /repo/convert.go:73-99; every statement starts from b.Metadata again *)
  Definition hConvertMetadata (fuel : nat) (md : loc) : prog unit :=
    let f name (body : loc -> prog unit) := via md (fun m => body (fld m (ix fields_Metadata name))) in
    below SpecVersion1_3 (f "Licenses" set_nil;; f "Properties" set_nil);;
    below SpecVersion1_5 (f "Lifecycles" set_nil);;
    below SpecVersion1_6 (f "Manufacturer" set_nil);;
    below SpecVersion1_7 (f "DistributionConstraints" set_nil);;
    f "Component" (call (hRecurseComponent fuel));;
    f "Licenses" (call hConvertLicenses);;
    f "Tools" (call hConvertTools);;
    f "Manufacture" (call hConvertOrganizationalEntity);;
    f "Supplier" (call hConvertOrganizationalEntity);;
    f "Authors" (fun l => for_each l (fun c => hConvertOrganizationalContact (Some c))).

  (** /repo/convert.go:35-133 *)
  Definition hConvert (fuel : nat) (b : loc) : prog unit :=
    let f name := fld b (ix fields_BOM name) in
    below SpecVersion1_1 (clear (f "SerialNumber");; set_nil (f "ExternalReferences"));;
    below SpecVersion1_2 (set_nil (f "Dependencies");; set_nil (f "Metadata");; set_nil (f "Services"));;
    below SpecVersion1_3 (set_nil (f "Compositions"));;
    below SpecVersion1_4 (set_nil (f "Vulnerabilities"));;
    below SpecVersion1_5 (set_nil (f "Annotations");; set_nil (f "Formulation"));;
    below SpecVersion1_6 (set_nil (f "Declarations");; set_nil (f "Definitions"));;
    below SpecVersion1_7 (
      set_nil (f "Citations");;
      guarded (f "Definitions") (fun defs => via defs (fun d => set_nil (fld d (ix fields_Definitions "Patents")))));;
    guarded (f "Dependencies") (fun deps => below SpecVersion1_6 (
      via deps (fun s => range s (fun d => set_nil (fld d (ix fields_Dependency "Provides"))))));;
    guarded (f "Metadata") (hConvertMetadata fuel);;
    for_each (f "Components") (fun c => hRecurseComponent fuel (Some c));;
    for_each (f "Services") (fun s => hRecurseService fuel (Some s));;
    guarded (f "Vulnerabilities") (call hConvertVulnerabilities);;
    guarded (f "Compositions") (call hConvertCompositions);;
    guarded (f "ExternalReferences") (call hConvertExternalReferences);;
    guarded (f "Annotations") (call (hConvertAnnotations fuel));;
    assign (f "SpecVersion") (HInt sv);;
    assign (f "XMLNS") (HStr (map_get xmlNamespaces sv));;
    assign (f "JSONSchema") (HStr (map_get jsonSchemas sv)).
End Convert.

(** ** /repo/copy.go *)

(** One after the other. *)
Definition each_of {A B} (f : A -> prog B) : list A -> prog (list B) :=
  fix go (l : list A) : prog (list B) := match l with [] => Ret [] | x :: l' => y <- f x;; ys <- go l';; Ret (y :: ys) end.

(** What encoding/gob (or any other encoder) sees of the memory behind a value. *)
Fixpoint read (fuel : nat) (c : hval) : prog val :=
  match fuel with
  | O => Loop
  | S fuel =>
      match c with
      | HStr s => Ret (VStr s)
      | HInt z => Ret (VInt z)
      | HBool b => Ret (VBool b)
      | HFlt f => Ret (VFlt f)
      | HPtr None => Ret (VPtr None)
      | HPtr (Some a) => Load (a, []) (fun c' => v <- read fuel c';; Ret (VPtr (Some v)))
      | HSlice None => Ret (VSlice None)
      | HSlice (Some a) => Load (a, []) (fun c' => match c' with HStruct cs => vs <- each_of (read fuel) cs;; Ret (VSlice (Some vs)) | _ => Crash end)
      | HStruct cs => vs <- each_of (read fuel) cs;; Ret (VStruct vs)
      end
  end.

(** Decoding allocates everything behind a pointer or slice. *)
Fixpoint place (v : val) : prog hval :=
  match v with
  | VStr s => Ret (HStr s)
  | VInt z => Ret (HInt z)
  | VBool b => Ret (HBool b)
  | VFlt f => Ret (HFlt f)
  | VPtr None => Ret (HPtr None)
  | VPtr (Some x) => c <- place x;; Alloc c (fun a => Ret (HPtr (Some a)))
  | VSlice None => Ret (HSlice None)
  | VSlice (Some l) => cs <- each_of place l;; Alloc (HStruct cs) (fun a => Ret (HSlice (Some a)))
  | VStruct l => cs <- each_of place l;; Ret (HStruct cs)
  end.

(** /repo/copy.go:30-43 with encoding/gob from GobModel.v *)
Definition gob_trip (v : val) : result string val :=
  match gob_send false v with
  | Ok (Some w) => gob_receive w (TRef "BOM")
  | Ok None => Err gob_mismatch
  | Err e => Err e
  end.
(** /repo/convert.go:23-32 followed by encoding the result, which reads it: what
    EncodeVersion shows to the encoder. [b] is the caller's pointer; the receiver of
    copyAndConvert is a copy of the struct behind it. *)
Definition hEncodeVersion (fuel : nat) (sv : SpecVersion) (b : addr) : prog (result string val) :=
  Load (b, []) (fun c =>
  v <- read fuel c;;
  match gob_trip v with
  | Err e => Ret (Err e)
  | Ok w =>
      c' <- place w;;
      Alloc c' (fun copy =>
        hConvert sv fuel (copy, []);;
        Load (copy, []) (fun c'' => r <- read fuel c'';; Ret (Ok r)))
  end).
