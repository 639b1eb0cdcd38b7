#!/usr/bin/env python3
"""Generate TypeTable.v (the struct declarations with their tags, verbatim) and Reify.v
(records <-> reflected values) from /repo/cyclonedx.go and the helper structs of
/repo/cyclonedx_json.go and /repo/cyclonedx_xml.go."""
import sys, os
sys.path.insert(0, os.path.dirname(os.path.abspath(__file__)))
from gen_types_order import *
from goparse import parse_file
HOOKED = {"BOMReference", "SpecVersion", "Licenses", "EnvironmentVariables"}
HELP = []
for p in ("/repo/cyclonedx_json.go", "/repo/cyclonedx_xml.go"):
    s, a, c = parse_file(p)
    for n, d in s.items(): HELP.append((p, n, d))
def tyx(t):
    if t[0] == "ptr": return "TPtr (%s)" % tyx(t[1])
    if t[0] == "slice": return "TSlice (%s)" % tyx(t[1])
    if t[0] == "xmlname": return 'TRef "xml.Name"'
    if t[0] == "prim": return {"string": "TStr", "int": "TInt", "bool": "TBool", "float32": "TF32", "float64": "TF64"}[t[1]]
    if t[1] in aliases and t[1] not in HOOKED: return tyx(aliases[t[1]][0])
    return 'TRef "%s"' % t[1]
def fieldx(f):
    return 'mkField "%s" (%s) "%s" %s' % (f["name"], tyx(f["type"]), f["tag"].replace('"', '""'), "true" if f["embedded"] else "false")
out = []
w = out.append
w("(** GENERATED by tools/gen_table.py: the struct declarations of /repo/cyclonedx.go and the")
w("    helper structs of /repo/cyclonedx_json.go and /repo/cyclonedx_xml.go, tags verbatim. *)")
w("From Verif Require Import Base Univ.")
w("Local Open Scope string_scope.")
w("")
w("(** encoding/xml Name *)")
w('Definition fields_xmlName : list field := [ mkField "Space" TStr "" false; mkField "Local" TStr "" false ].')
names = [("xml.Name", "fields_xmlName")]
for n in order:
    if n in aliases: continue
    d = structs[n]
    w("(** /repo/cyclonedx.go:%d-%d *)" % d["lines"])
    w("Definition fields_%s : list field :=\n  [ %s ]." % (cname(n), ";\n    ".join(fieldx(f) for f in d["fields"])))
    names.append((n, "fields_" + cname(n)))
for p, n, d in HELP:
    w("(** %s:%d-%d *)" % ((p,) + d["lines"]))
    w("Definition fields_%s : list field :=\n  [ %s ]." % (cname(n), ";\n    ".join(fieldx(f) for f in d["fields"])))
    names.append((n, "fields_" + cname(n)))
w("")
w("(** Named types with methods that are not structs, and every struct. *)")
w("Definition defs : list (string * tdef) :=")
rows = ['("%s", DAlias (%s))' % (a, tyx(aliases[a][0])) for a in sorted(HOOKED)] + ['("%s", DStruct %s)' % x for x in names]
w("  [ " + ";\n    ".join(rows) + " ].")
open("/verif/rocq/theories/TypeTable.v", "w").write("\n".join(out) + "\n")

# Reify.v
def reify(t, inside=None):
    if t[0] == "ptr": return "vptr (%s)" % reify(t[1], inside)
    if t[0] == "slice": return "vslice (%s)" % reify(t[1], inside)
    if t[0] == "xmlname": return "vname"
    if t[0] == "prim": return {"string": "VStr", "int": "VInt", "bool": "VBool", "float32": "VFlt", "float64": "VFlt"}[t[1]]
    if t[1] in aliases: return reify(aliases[t[1]][0], inside)
    if inside == "Pedigree" and t[1] == "Component": return "f"
    if inside == "Component" and t[1] == "Pedigree": return "reify_Pedigree_ reify_Component"
    return "reify_" + cname(t[1])
def reflect(t, inside=None):
    if t[0] == "ptr": return "ptr_of (%s)" % reflect(t[1], inside)
    if t[0] == "slice": return "slice_of (%s)" % reflect(t[1], inside)
    if t[0] == "xmlname": return "name_of"
    if t[0] == "prim": return {"string": "str_of", "int": "int_of", "bool": "bool_of", "float32": "flt_of", "float64": "flt_of"}[t[1]]
    if t[1] in aliases: return reflect(aliases[t[1]][0], inside)
    if inside == "Pedigree" and t[1] == "Component": return "f"
    if inside == "Component" and t[1] == "Pedigree": return "reflect_Pedigree_ reflect_Component"
    return "reflect_" + cname(t[1])
out = []
w = out.append
w("(** GENERATED by tools/gen_table.py: [reify_T] lists the fields of a record in the order of")
w("    fields_T (TypeTable.v); [reflect_T] reads them back. *)")
w("From Verif Require Import Base Types Univ.")
w("Local Open Scope string_scope.")
w("")
for n in order:
    if n in aliases: continue
    c = cname(n); fs = structs[n]["fields"]
    if n == "Pedigree":
        w("Definition reify_Pedigree_ {C} (f : C -> val) (x : Pedigree_ C) : val :=")
    elif n in ("Component", "Service"):
        w("Fixpoint reify_%s (x : %s) {struct x} : val :=" % (c, c))
    else:
        w("Definition reify_%s (x : %s) : val :=" % (c, c))
    w("  VStruct [ %s ]." % ";\n            ".join("%s (%s_%s x)" % (reify(f["type"], n), c, f["name"]) for f in fs))
    if n == "Pedigree":
        w("Definition reflect_Pedigree_ {C} (f : val -> C) (v : val) : Pedigree_ C :=")
    elif n in ("Component", "Service"):
        w("Fixpoint reflect_%s (v : val) {struct v} : %s :=" % (c, c))
    else:
        w("Definition reflect_%s (v : val) : %s :=" % (c, c))
    w("  match v with")
    w("  | VStruct [%s] =>" % "; ".join("a%d" % i for i in range(len(fs))))
    w("      mk%s %s" % (c, " ".join("(%s a%d)" % (reflect(f["type"], n), i) for i, f in enumerate(fs))))
    w("  | _ => zero_%s" % c)
    w("  end.")
    if n == "Component":
        w("Definition reify_Pedigree := reify_Pedigree_ reify_Component.")
        w("Definition reflect_Pedigree := reflect_Pedigree_ reflect_Component.")
    w("")
open("/verif/rocq/theories/Reify.v", "w").write("\n".join(out) + "\n")

# ReifyFacts.v
out = []
w = out.append
w("(** GENERATED by tools/gen_table.py: [reify] and [reflect] are inverse to each other. *)")
w("From Verif Require Import Base Types Univ TypeTable Wt Reify ReifyBase ConvertSpec ConvertProofs.")
w("Local Open Scope string_scope.")
w("")
def wt_struct(c, n):
    w("Lemma wt_%s_inv v : wt (TRef \"%s\") v -> exists vs, v = VStruct vs /\\ zip_all (fun f x => wt (f_ty f) x) vs fields_%s." % (c, n, c))
    w("Proof.")
    w("  intros W. destruct v; cbn [wt] in W; rewrite kind_%s in W; try discriminate; try contradiction. eauto." % c)
    w("Qed.")
def names(k): return " ".join("a%d" % i for i in range(k))
def destruct_fields(c, fs):
    k = len(fs)
    pat = "|a%d vs" 
    w("  apply wt_%s_inv in W as (vs & -> & W). unfold fields_%s in W." % (c, c))
    for i in range(k):
        w("  destruct vs as [|a%d vs]; [destruct W|]. destruct W as [W%d W]. cbn [f_ty] in W%d." % (i, i, i))
    w("  destruct vs as [|? ?]; [clear W|destruct W].")
for n in order:
    if n in aliases: continue
    c = cname(n); fs = structs[n]["fields"]
    w('Lemma kind_%s : kind_of (TRef "%s") = KStruct fields_%s. Proof. reflexivity. Qed.' % (c, n, c))
    wt_struct(c, n)
    projs = " ".join("%s_%s" % (c, f["name"]) for f in fs)
    if n == "Pedigree":
        w("""Lemma inv_Pedigree_in {C} (f : C -> val) (g : val -> C) (x : Pedigree_ C) :
  (forall l, In l [Pedigree_Ancestors x; Pedigree_Descendants x; Pedigree_Variants x] -> ptr_of (slice_of g) (vptr (vslice f) l) = l) ->
  reflect_Pedigree_ g (reify_Pedigree_ f x) = x.
Proof.
  intros H. unfold reify_Pedigree_. cbn [reflect_Pedigree_]. rewrite !H by (cbn; auto).
  rr. destruct x; reflexivity.
Qed.
Lemma typed_Pedigree_in {C} (f : C -> val) (x : Pedigree_ C) :
  (forall l, In l [Pedigree_Ancestors x; Pedigree_Descendants x; Pedigree_Variants x] -> wt (TPtr (TSlice (TRef "Component"))) (vptr (vslice f) l)) ->
  wt (TRef "Pedigree") (reify_Pedigree_ f x).
Proof.
  intros H. unfold reify_Pedigree_. cbn [wt]. rewrite kind_Pedigree. unfold fields_Pedigree. cbn [zip_all f_ty].
  fields_typed; try (apply H; cbn; auto; fail).
  - apply (typed_ptr _ _ (typed_slice _ _ typed_Commit)).
  - apply (typed_ptr _ _ (typed_slice _ _ typed_Patch)).
  - apply typed_str.
Qed.
Lemma vni_Pedigree_in {C} (f : C -> val) (g : val -> C) vs :
  Forall (fun v => wt (TPtr (TSlice (TRef "Component"))) v -> vptr (vslice f) (ptr_of (slice_of g) v) = v) vs ->
  wt (TRef "Pedigree") (VStruct vs) -> reify_Pedigree_ f (reflect_Pedigree_ g (VStruct vs)) = VStruct vs.
Proof.
  intros IH W.
  apply wt_Pedigree_inv in W as (vs' & E & W). injection E as <-. unfold fields_Pedigree in W.
  destruct vs as [|a0 [|a1 [|a2 [|a3 [|a4 [|a5 [|]]]]]]]; try (cbn [zip_all] in W; tauto).
  cbn [zip_all f_ty] in W. destruct W as (W0 & W1 & W2 & W3 & W4 & W5 & _).
  inversion_clear IH as [|? ? I0 IH1]. inversion_clear IH1 as [|? ? I1 IH2]. inversion_clear IH2 as [|? ? I2 _].
  unfold reify_Pedigree_. cbn [reflect_Pedigree_ %s]. fields_back; auto.
  - apply (vni_ptr _ _ _ (vni_slice _ _ _ vni_Commit)), W3.
  - apply (vni_ptr _ _ _ (vni_slice _ _ _ vni_Patch)), W4.
  - apply vni_str, W5.
Qed.
""" % projs)
        continue
    if n in ("Component", "Service"):
        w("Lemma reify_%s_fix x : reify_%s x =" % (c, c))
        w("  VStruct [ %s ]." % ";\n            ".join("%s (%s_%s x)" % (reify(f["type"], n), c, f["name"]) for f in fs))
        w("Proof. destruct x; reflexivity. Qed.")
        w("Lemma inv_%s : inv reify_%s reflect_%s." % (c, c, c))
        w("Proof.")
        w("  intros x. induction x as [x IH] using %s_induction." % n.lower())
        w("  rewrite reify_%s_fix. cbn [reflect_%s]." % (c, c))
        if n == "Component":
            w("  unfold child_component in IH.")
            w("  rewrite (inv_ptr_slice_in reify_Component reflect_Component) by (intros y Hy; apply IH; left; exact Hy).")
            w("  match goal with |- context [ptr_of (reflect_Pedigree_ reflect_Component) (vptr (reify_Pedigree_ reify_Component) ?p)] =>")
            w("    assert (EP : ptr_of (reflect_Pedigree_ reflect_Component) (vptr (reify_Pedigree_ reify_Component) p) = p) end.")
            w("  { match goal with |- ptr_of _ (vptr _ ?p) = _ => destruct p as [p0|] eqn:EPP end; [|reflexivity]. unfold vptr, ptr_of. cbn [option_map]. f_equal.")
            w("    apply inv_Pedigree_in. intros l Hl. apply inv_ptr_slice_in. intros y Hy. apply IH. right. exists p0. split; [reflexivity|].")
            w("    cbn [In] in Hl. unfold members. destruct Hl as [<-|[<-|[<-|[]]]]; auto. }")
            w("  rewrite EP. clear EP.")
        else:
            w("  unfold child_service in IH.")
            w("  rewrite (inv_ptr_slice_in reify_Service reflect_Service) by exact IH.")
        w("  rr. destruct x; reflexivity.")
        w("Qed.")
        w("Lemma typed_%s : typed (TRef \"%s\") reify_%s." % (c, n, c))
        w("Proof.")
        w("  intros x. induction x as [x IH] using %s_induction." % n.lower())
        w("  rewrite reify_%s_fix. cbn [wt]. rewrite kind_%s. unfold fields_%s. cbn [zip_all f_ty]." % (c, c, c))
        if n == "Component":
            w("  unfold child_component in IH.")
        else:
            w("  unfold child_service in IH.")
        w("  fields_typed.")
        for f in fs:
            t = f["type"]
            if (n, f["name"]) in (("Component", "Components"), ("Service", "Services")):
                w("  - apply typed_slice_in. intros y Hy. apply IH. %sexact Hy." % ("left; " if n == "Component" else ""))
            elif (n, f["name"]) == ("Component", "Pedigree"):
                w("  - match goal with |- wt _ (vptr _ ?p) => destruct p as [p0|] eqn:EPP end; [|exact I]. apply typed_Pedigree_in. intros l Hl. apply typed_slice_in.")
                w("    intros y Hy. apply IH. right. exists p0. split; [reflexivity|]. cbn [In] in Hl. unfold members. destruct Hl as [<-|[<-|[<-|[]]]]; auto.")
            else:
                w("  - match goal with |- wt ?t (?f ?x) => apply (ltac:(auto 8 with reify) : typed t f) end.")
        w("Qed.")
        w("#[export] Hint Resolve inv_%s typed_%s : reify." % (c, c))
        if n == "Component":
            w('''Definition vni_at {A} (t : ty) (f : A -> val) (g : val -> A) (v : val) : Prop := wt t v -> f (g v) = v.
Lemma vni_Component_all v :
  vni_at (TRef "Component") reify_Component reflect_Component v /\\
  vni_at (TSlice (TRef "Component")) (vslice reify_Component) (slice_of reflect_Component) v /\\
  vni_at (TPtr (TSlice (TRef "Component"))) (vptr (vslice reify_Component)) (ptr_of (slice_of reflect_Component)) v /\\
  vni_at (TRef "Pedigree") (reify_Pedigree_ reify_Component) (reflect_Pedigree_ reflect_Component) v /\\
  vni_at (TPtr (TRef "Pedigree")) (vptr (reify_Pedigree_ reify_Component)) (ptr_of (reflect_Pedigree_ reflect_Component)) v.
Proof.
  induction v as [| | | | |x IH| |l IH|vs IH] using val_induction; unfold vni_at in *;
    (split; [|split; [|split; [|split]]]); intros W;
    try (vm_compute in W; discriminate || contradiction || reflexivity).
  - cbn in W. destruct IH as (_ & IH & _). unfold vptr, ptr_of. cbn [option_map]. rewrite IH by exact W. reflexivity.
  - cbn in W. destruct IH as (_ & _ & _ & IH & _). unfold vptr, ptr_of. cbn [option_map]. rewrite IH by exact W. reflexivity.
  - cbn in W. rewrite list_all_forall in W. unfold vslice, slice_of. cbn [option_map]. do 2 f_equal. rewrite map_map.
    rewrite <- (map_id l) at 2. apply map_ext_in. intros x Hx. rewrite Forall_forall in IH, W. apply (proj1 (IH x Hx)), W, Hx.
  - ''')
            w("    apply wt_Component_inv in W as (vs' & E & W). injection E as <-. unfold fields_Component in W.")
            for i in range(len(fs)):
                w("    destruct vs as [|a%d vs]; [destruct W|]. destruct W as [W%d W]. cbn [f_ty] in W%d." % (i, i, i))
            w("    destruct vs as [|? ?]; [clear W|destruct W].")
            w("    cbn [reflect_Component]. rewrite reify_Component_fix. cbn [%s]. rewrite Forall_forall in IH. fields_back." % projs)
            for i, f in enumerate(fs):
                if f["name"] == "Components":
                    w("    + apply (IH a%d); [cbn [In]; auto 40|exact W%d]." % (i, i))
                elif f["name"] == "Pedigree":
                    w("    + apply (IH a%d); [cbn [In]; auto 40|exact W%d]." % (i, i))
                else:
                    w("    + match goal with |- ?f (?g ?v) = _ => match type of W%d with wt ?t _ => exact ((ltac:(auto 8 with reify) : vni t f g) v W%d) end end." % (i, i))
            w('''  - apply vni_Pedigree_in; [|exact W]. rewrite Forall_forall in *. intros x Hx. apply IH, Hx.
Qed.
Lemma vni_Component : vni (TRef "Component") reify_Component reflect_Component.
Proof. intros v. apply vni_Component_all. Qed.
Lemma inv_Pedigree : inv reify_Pedigree reflect_Pedigree.
Proof. intros x. apply inv_Pedigree_in. intros l _. apply (inv_ptr _ _ (inv_slice _ _ inv_Component)). Qed.
Lemma typed_Pedigree : typed (TRef "Pedigree") reify_Pedigree.
Proof. intros x. apply typed_Pedigree_in. intros l _. apply (typed_ptr _ _ (typed_slice _ _ typed_Component)). Qed.
#[export] Hint Resolve vni_Component inv_Pedigree typed_Pedigree : reify.
''')
        else:
            w('''Lemma vni_Service_all v :
  vni_at (TRef "Service") reify_Service reflect_Service v /\\
  vni_at (TSlice (TRef "Service")) (vslice reify_Service) (slice_of reflect_Service) v /\\
  vni_at (TPtr (TSlice (TRef "Service"))) (vptr (vslice reify_Service)) (ptr_of (slice_of reflect_Service)) v.
Proof.
  induction v as [| | | | |x IH| |l IH|vs IH] using val_induction; unfold vni_at in *;
    (split; [|split]); intros W;
    try (vm_compute in W; discriminate || contradiction || reflexivity).
  - cbn in W. destruct IH as (_ & IH & _). unfold vptr, ptr_of. cbn [option_map]. rewrite IH by exact W. reflexivity.
  - cbn in W. rewrite list_all_forall in W. unfold vslice, slice_of. cbn [option_map]. do 2 f_equal. rewrite map_map.
    rewrite <- (map_id l) at 2. apply map_ext_in. intros x Hx. rewrite Forall_forall in IH, W. apply (proj1 (IH x Hx)), W, Hx.
  - ''')
            w("    apply wt_Service_inv in W as (vs' & E & W). injection E as <-. unfold fields_Service in W.")
            for i in range(len(fs)):
                w("    destruct vs as [|a%d vs]; [destruct W|]. destruct W as [W%d W]. cbn [f_ty] in W%d." % (i, i, i))
            w("    destruct vs as [|? ?]; [clear W|destruct W].")
            w("    cbn [reflect_Service]. rewrite reify_Service_fix. cbn [%s]. rewrite Forall_forall in IH. fields_back." % projs)
            for i, f in enumerate(fs):
                if f["name"] == "Services":
                    w("    + apply (IH a%d); [cbn [In]; auto 40|exact W%d]." % (i, i))
                else:
                    w("    + match goal with |- ?f (?g ?v) = _ => match type of W%d with wt ?t _ => exact ((ltac:(auto 8 with reify) : vni t f g) v W%d) end end." % (i, i))
            w('''Qed.
Lemma vni_Service : vni (TRef "Service") reify_Service reflect_Service.
Proof. intros v. apply vni_Service_all. Qed.
#[export] Hint Resolve vni_Service : reify.
''')
        w("")
        continue
    w("Lemma inv_%s : inv reify_%s reflect_%s." % (c, c, c))
    w("Proof. intros x; unfold reify_%s; cbn [reflect_%s]; rr; destruct x; reflexivity. Qed." % (c, c))
    w('Lemma typed_%s : typed (TRef "%s") reify_%s.' % (c, n, c))
    w("Proof.")
    w("  intros x; unfold reify_%s; cbn [wt]; rewrite kind_%s; unfold fields_%s; cbn [zip_all f_ty]; fields_typed;" % (c, c, c))
    w("    match goal with |- wt ?t (?f ?x) => apply (ltac:(auto 8 with reify) : typed t f) end.")
    w("Qed.")
    w('Lemma vni_%s : vni (TRef "%s") reify_%s reflect_%s.' % (c, n, c, c))
    w("Proof.")
    w("  intros v W.")
    destruct_fields(c, fs)
    w("  cbn [reflect_%s]. unfold reify_%s. cbn [%s]. fields_back." % (c, c, projs))
    for i, f in enumerate(fs):
        w("  - match goal with |- ?f (?g ?v) = _ => match type of W%d with wt ?t _ => exact ((ltac:(auto 8 with reify) : vni t f g) v W%d) end end." % (i, i))
    w("Qed.")
    w("#[export] Hint Resolve inv_%s typed_%s vni_%s : reify." % (c, c, c))
    w("")
open("/verif/rocq/theories/ReifyFacts.v", "w").write("\n".join(out) + "\n")
