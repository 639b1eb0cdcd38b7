#!/usr/bin/env python3
"""Generate rocq/theories/Within.v and WithinFacts.v: which fields and enumeration values
a specification version defines, as found in the schemas in /repo/schema by schemawalk.py."""
import os, sys
sys.path.insert(0, os.path.dirname(os.path.abspath(__file__)))
import schemawalk as W
from gen_types_order import order, zero, cname, structs, aliases

res = W.run()
MARKERS = {("BOM", f) for f in ("XMLName", "XMLNS", "JSONSchema", "BOMFormat", "SpecVersion")}
NEVER = "never"
def vmin(a, b):
    vs = [x for x in (a, b) if x]
    return min(vs) if vs else NEVER
intro = {k: vmin(*v) for k, v in res.items()}
def vname(v): return "never" if v == NEVER else "v" + v.replace(".", "_")
def vkey(v): return "9" if v == NEVER else v

enum_versions = {}
for a, d in W.enums.items():
    enum_versions[a] = [(x, vmin(min(s["json"]) if s["json"] else None, min(s["xml"]) if s["xml"] else None)) for x, s in d.items()]
multi = {a for a, l in enum_versions.items() if len({v for _, v in l}) > 1}

def under(t):
    while t[0] == "named" and t[1] in aliases: t = aliases[t[1]][0]
    return t

def nested(t, owner):
    """a function from a projection term to the clause about what is inside, or None"""
    if t[0] == "named":
        if t[1] in structs:
            if owner == "Pedigree" and t[1] == "Component": return "P"
            if owner in ("Component", "Service") and t[1] == owner: return "(within_%s sv)" % cname(owner)
            if t[1] == "Pedigree": return "(within_Pedigree (within_Component sv) sv)"
            return "(within_%s sv)" % cname(t[1])
        if t[1] in multi: return "(not_newer %s_values sv)" % t[1]
        return nested(aliases[t[1]][0], owner)
    if t[0] == "ptr":
        s = under(t[1])
        if s[0] == "slice":
            p = nested(s[1], owner)
            return "(all_in %s)" % p if p else None
        p = nested(t[1], owner)
        return "(inside %s)" % p if p else None
    return None

def maxv(a, b): return a if vkey(a) >= vkey(b) else b
level = {}
def lev_t(t):
    if t[0] in ("ptr", "slice"): return lev_t(t[1])
    if t[0] == "named":
        if t[1] in structs:
            return level.get(t[1], "1.0")
        l = "1.0"
        if t[1] in multi: l = max(v for _, v in enum_versions[t[1]])
        return maxv(l, lev_t(aliases[t[1]][0]))
    return "1.0"
for _ in range(3):
    for n in order:
        if n in structs:
            l = "1.0"
            for f in structs[n]["fields"]:
                if (n, f["name"]) in MARKERS: continue
                l = maxv(l, maxv(intro[(n, f["name"])], lev_t(f["type"])))
            level[n] = l

out = []
w = out.append
w('''(** GENERATED by tools/gen_within.py. Which fields and which enumeration values a
    specification version defines, according to the official schemas in /repo/schema
    (JSON Schema 1.2 to 1.7 and XSD 1.0 to 1.7): a field belongs to the oldest version
    in which one of the two formats has it. [within_T sv x]: nothing in [x], at any
    depth, is newer than [sv]. Independent of the model. The version markers of a BOM
    are left out. Enumerations all of whose values are as old as their fields need no
    clause. *)
From Verif Require Import Base Types ConvertSpec.
Local Open Scope string_scope.
Local Open Scope Z_scope.

(** In no version (no schema defines the field). *)
Definition never : SpecVersion := 1000.

(** The field was introduced in [v]: before, it has its zero value. *)
Definition introduced {A} (v sv : SpecVersion) (zero x : A) : Prop := sv < v -> x = zero.

(** The enumeration value was not introduced after [sv]. *)
Definition not_newer (e : list (string * SpecVersion)) (sv : SpecVersion) (s : string) : Prop :=
  forall v, In (s, v) e -> v <= sv.

Definition inside {A} (P : A -> Prop) (o : option A) : Prop := match o with Some x => P x | None => True end.

Definition all_of {A} (P : A -> Prop) : list A -> Prop :=
  fix all_of l := match l with [] => True | x :: l' => P x /\\ all_of l' end.
Definition all_in {A} (P : A -> Prop) (p : option (option (list A))) : Prop :=
  match p with Some (Some l) => all_of P l | _ => True end.
''')
for a in sorted(multi):
    l = enum_versions[a]
    w("Definition %s_values : list (string * SpecVersion) :=" % a)
    lines, cur = [], "  ["
    for i, (x, v) in enumerate(l):
        item = ' ("%s", %s)%s' % (x, vname(v), ";" if i + 1 < len(l) else " ].")
        if len(cur) + len(item) > 150:
            lines.append(cur); cur = "   "
        cur += item
    lines.append(cur)
    w("\n".join(lines))
w("")
clauses = {}
for n in order:
    if n not in structs: continue
    c = cname(n)
    cl = []
    for f in structs[n]["fields"]:
        if (n, f["name"]) in MARKERS: continue
        v = intro[(n, f["name"])]
        proj = "(%s_%s x)" % (c, f["name"])
        if v != "1.0":
            z = zero(f["type"])
            z = z if " " not in z else "(%s)" % z
            cl.append(("intro", "introduced %s sv %s %s" % (vname(v), z, proj)))
        p = nested(f["type"], n)
        if p:
            cl.append(("in", "%s %s" % (p[1:-1] if p.startswith("(") else p, proj)))
    body = " /\\\n  ".join(s for _, s in cl) if cl else "True"
    clauses[n] = cl
    js = {res[(n, f["name"])] for f in structs[n]["fields"]}
    a, b = structs[n]["lines"]
    w("(** /repo/cyclonedx.go:%d-%d *)" % (a, b))
    if n == "Pedigree":
        w("Definition within_Pedigree {C} (P : C -> Prop) (sv : SpecVersion) (x : Pedigree_ C) : Prop :=\n  %s." % body)
    elif n in ("Component", "Service"):
        w("Fixpoint within_%s (sv : SpecVersion) (x : %s) {struct x} : Prop :=\n  %s." % (c, c, body))
    else:
        w("Definition within_%s (sv : SpecVersion) (x : %s) : Prop :=\n  %s." % (c, c, body))
open("/verif/rocq/theories/Within.v", "w").write("\n".join(out) + "\n")

out = []
w = out.append
w('''(** GENERATED by tools/gen_within.py: from some version on everything in a record is defined. *)
From Verif Require Import Base Types ConvertSpec Within.
From Coq Require Import Lia.
Local Open Scope string_scope.
Local Open Scope Z_scope.

Lemma all_of_forall {A} (P : A -> Prop) l : all_of P l <-> forall x, In x l -> P x.
Proof.
  induction l as [|y l IH]; cbn [all_of In]; split; [intros _ x []|trivial| |].
  - intros [H1 H2] x [<-|Hx]; trivial. apply IH; trivial.
  - intros H. split; [apply H; left; reflexivity|]. apply IH. intros x Hx; apply H; right; exact Hx.
Qed.

Lemma all_in_forall {A} (P : A -> Prop) p : all_in P p <-> forall x, In x (members p) -> P x.
Proof.
  destruct p as [[l|]|]; cbn [all_in members]; [apply all_of_forall| |]; (split; [intros _ x []|trivial]).
Qed.

Lemma all_in_new {A} (P : A -> Prop) p : (forall x, P x) -> all_in P p.
Proof. intros H. apply all_in_forall. auto. Qed.

Lemma inside_new {A} (P : A -> Prop) o : (forall x, P x) -> inside P o.
Proof. intros H. destruct o; cbn; auto. Qed.

Lemma introduced_new {A} v sv (z x : A) : v <= sv -> introduced v sv z x.
Proof. intros H L. lia. Qed.

Lemma not_newer_new e m sv s : forallb (fun p => snd p <=? m) e = true -> m <= sv -> not_newer e sv s.
Proof.
  intros He Hm v Hv. rewrite forallb_forall in He. specialize (He _ Hv). cbn in He. apply Z.leb_le in He. lia.
Qed.

Ltac conjs := repeat match goal with |- _ /\\ _ => split end.
Ltac vlia := unfold v1_0, v1_1, v1_2, v1_3, v1_4, v1_5, v1_6, v1_7, never in *; lia.
''')
def lemma_for(t, owner):
    if t[0] == "named":
        if t[1] in structs: return "apply within_%s_new; vlia" % cname(t[1])
        if t[1] in multi: return "apply (not_newer_new _ %s); [reflexivity|vlia]" % vname(max(v for _, v in enum_versions[t[1]]))
        return lemma_for(aliases[t[1]][0], owner)
    if t[0] == "ptr":
        s = under(t[1])
        if s[0] == "slice":
            return "apply all_in_new; intros; " + lemma_for(s[1], owner)
        return "apply inside_new; intros; " + lemma_for(t[1], owner)
for n in order:
    if n not in structs or level[n] == NEVER or n in ("Component", "Service", "Pedigree"): continue
    # anything that reaches Component or Service needs their lemma first: those come in order
    c = cname(n)
    w("Lemma within_%s_new sv x : %s <= sv -> within_%s sv x." % (c, vname(level[n]), c))
    tacs = []
    for f in structs[n]["fields"]:
        if (n, f["name"]) in MARKERS: continue
        if intro[(n, f["name"])] != "1.0": tacs.append("apply introduced_new; vlia")
        if nested(f["type"], n): tacs.append(lemma_for(f["type"], n))
    if not tacs:
        w("Proof. intros _. exact I. Qed.")
    else:
        w("Proof.\n  intros H. unfold within_%s. conjs.\n%s\nQed." % (c, "\n".join("  - %s." % t for t in tacs)))
    # Pedigree precedes Component in the order; the two recursive types are closed here.
    nxt = order[order.index(n) + 1:]
LATE = None
text = "\n".join(out) + "\n"
comp = '''
Lemma within_Pedigree_new {C} (P : C -> Prop) sv x : v1_2 <= sv -> (forall c, (In c (members (Pedigree_Ancestors x)) \\/
    In c (members (Pedigree_Descendants x)) \\/ In c (members (Pedigree_Variants x))) -> P c) -> within_Pedigree P sv x.
Proof.
  intros H HP. unfold within_Pedigree. conjs.
  - apply introduced_new; vlia.
  - apply all_in_forall. intros; apply HP; tauto.
  - apply introduced_new; vlia.
  - apply all_in_forall. intros; apply HP; tauto.
  - apply introduced_new; vlia.
  - apply all_in_forall. intros; apply HP; tauto.
  - apply introduced_new; vlia.
  - apply all_in_new; intros; apply within_Commit_new; vlia.
  - apply introduced_new; vlia.
  - apply all_in_new; intros; apply within_Patch_new; vlia.
  - apply introduced_new; vlia.
Qed.
'''
# split the output at the first record that mentions Component or Service
first = min(text.find("Lemma within_%s_new" % cname(x)) for x in structs
            if text.find("Lemma within_%s_new" % cname(x)) >= 0 and
            any(("within_Component_new" in seg) or ("within_Service_new" in seg)
                for seg in [text[text.find("Lemma within_%s_new" % cname(x)):text.find("Qed.", text.find("Lemma within_%s_new" % cname(x)))]]))
def rec(n):
    c = cname(n)
    tacs = []
    for f in structs[n]["fields"]:
        if intro[(n, f["name"])] != "1.0": tacs.append("apply introduced_new; vlia")
        t = f["type"]
        if t == ("ptr", ("slice", ("named", n))):
            tacs.append("apply all_in_forall; intros; apply IH; left; assumption" if n == "Component" else "apply all_in_forall; exact IH")
        elif t == ("ptr", ("named", "Pedigree")):
            tacs.append("destruct (Component_Pedigree x) as [p|] eqn:Ep; [|exact I]; apply within_Pedigree_new; [vlia|]; intros y Hy; apply IH; right; exists p; auto")
        elif nested(t, n): tacs.append(lemma_for(t, n))
    return '''
Lemma within_%s_new sv x : %s <= sv -> within_%s sv x.
Proof.
  intros H. induction x as [x IH] using %s_induction. rewrite within_%s_fix. unfold within_%s_. conjs.
%s
Qed.
''' % (c, vname(level[n]), c, c.lower(), c, c, "\n".join("  - %s." % t for t in tacs))
def fix(n):
    c = cname(n)
    body = " /\\\n  ".join(s for _, s in clauses[n])
    return '''
Definition within_%s_ (sv : SpecVersion) (x : %s) : Prop :=
  %s.
Lemma within_%s_fix sv x : within_%s sv x = within_%s_ sv x.
Proof. destruct x; reflexivity. Qed.
''' % (c, c, body, c, c, c)
text = text[:first] + comp + fix("Component") + rec("Component") + fix("Service") + rec("Service") + text[first:]
text = text.replace("From Verif Require Import Base Types ConvertSpec Within.", "From Verif Require Import Base Types ConvertSpec ConvertProofs Within.")
open("/verif/rocq/theories/WithinFacts.v", "w").write(text)
