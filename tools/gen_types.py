#!/usr/bin/env python3
"""Generate rocq/theories/Types.v from the struct declarations in /repo/cyclonedx.go.
The generated file is committed; this script only documents how it was made."""
import sys, os
sys.path.insert(0, os.path.dirname(os.path.abspath(__file__)))
from gen_types_order import *

out = []
def w(x): out.append(x)
w('(** GENERATED by tools/gen_types.py from /repo/cyclonedx.go: one record per Go struct,')
w('    one field per Go field, in declaration order; named string types are strings.')
w('    [set_T_F v x] is the assignment x.F = v, [over_T_F f x] is x.F = f(x.F). [zero_T] is the zero value. *)')
w('From Verif Require Import Base.')
w('Local Open Scope string_scope.')
w('')
w('(** float32 / float64 values. A finite value is identified with the shortest')
w('    decimal [(-1)^neg * m * 10^e] that denotes it ([m] not divisible by ten, or')
w('    zero with [e = 0]); binary rounding is not modelled. *)')
w('Inductive gofloat := FFin (neg : bool) (m : N) (e : Z) | FInf (neg : bool) | FNaN.')
w('Definition fzero := FFin false 0 0.')
w('')
w('(** encoding/xml Name *)')
w('Record XMLName := mkXMLName { XMLName_Space : string; XMLName_Local : string }.')
w('')
for n in order:
    if n in aliases:
        t, ln = aliases[n]
        w('(** /repo/cyclonedx.go:%d *)' % ln)
        w('Definition %s := %s.' % (cname(n), coq_ty(t)))
        continue
    if n not in structs:
        raise SystemExit("unknown " + n)
    fs = structs[n]["fields"]
    a, b = structs[n]["lines"]
    c = cname(n)
    rec = n in ("Component", "Service")
    w('(** /repo/cyclonedx.go:%d-%d%s *)' % (a, b, "; the recursion through Component is closed below" if n == "Pedigree" else ""))
    head = "Inductive %s :=" % c if rec else ("Record Pedigree_ (C : Type) :=" if n == "Pedigree" else "Record %s :=" % c)
    w("%s mk%s {" % (head, c))
    w(";\n".join("  %s_%s : %s" % (c, f["name"], coq_ty(f["type"], n)) for f in fs))
    w("}.")
    tyname = c
    if n == "Pedigree":
        tyname = "Pedigree_ C"
        w("Arguments mkPedigree {C}.")
        for f in fs: w("Arguments Pedigree_%s {C}." % f["name"])
    par = " {C : Type}" if n == "Pedigree" else ""
    for f in fs:
        w("Definition set_%s_%s%s (v : %s) (x : %s) : %s :=" % (c, f["name"], par, coq_ty(f["type"], n), tyname, tyname))
        w("  mk%s %s." % (c, " ".join("v" if g is f else "(%s_%s x)" % (c, g["name"]) for g in fs)))
    for f in fs:
        ft = coq_ty(f["type"], n)
        w("Definition over_%s_%s%s (f : %s -> %s) (x : %s) : %s := set_%s_%s (f (%s_%s x)) x." % (c, f["name"], par, ft, ft, tyname, tyname, c, f["name"], c, f["name"]))
    w("Definition zero_%s%s : %s := mk%s %s." % (c, par, tyname, c, " ".join("(%s)" % zero(f["type"]) for f in fs)))
    if n == "Component":
        w("Definition Pedigree := Pedigree_ Component.")
    w("")
open("/verif/rocq/theories/Types.v", "w").write("\n".join(out) + "\n")

# Record extensionality, used in proofs only.
out = []
w('(** GENERATED by tools/gen_types.py: every record is determined by its fields. *)')
w('From Verif Require Import Base Types.')
w('')
for n in order:
    if n in aliases: continue
    c = cname(n)
    fs = structs[n]["fields"]
    par = " {C}" if n == "Pedigree" else ""
    ty = "Pedigree_ C" if n == "Pedigree" else c
    w("Lemma ext_%s%s (x y : %s) :" % (c, par, ty))
    w("".join("  %s_%s x = %s_%s y ->\n" % (c, f["name"], c, f["name"]) for f in fs) + "  x = y.")
    w("Proof. destruct x, y; cbn; intros; subst; reflexivity. Qed.")
open("/verif/rocq/theories/TypesFacts.v", "w").write("\n".join(out) + "\n")
