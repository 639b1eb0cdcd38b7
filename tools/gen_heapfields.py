#!/usr/bin/env python3
"""Generate HeapFields.v: for every struct field HeapModel.v touches, the lens to it, read off Reify.v."""
import re
D = "/verif/rocq/theories/"
src, model = open(D + "Reify.v").read(), open(D + "HeapModel.v").read()
types = sorted(set(re.findall(r"fields_(\w+)", model)))
names = set(re.findall(r'"(\w+)"', model))
out = ['''(** GENERATED by tools/gen_heapfields.py: where the fields that HeapModel.v touches are. *)
From Verif Require Import Base Types Univ TypeTable Reify HeapModel HeapLogic.
Local Open Scope string_scope.
Ltac is_field_tac o s := intros x; split; [|unfold o, s; split; [let f0 := fresh in let H := fresh in intros f0 H; rewrite H; destruct x; reflexivity|reflexivity]];
  destruct x; eexists; split; [reflexivity|split; [reflexivity|intros; reflexivity]].
''']
hints = []
for t in types:
    if t in ("Pedigree", "xmlName"): r, args = "reify_Pedigree_", " {C} (f : C -> val)"
    else: r, args = "reify_" + t, ""
    m = re.search(r"(?:Definition|Fixpoint) %s .*?VStruct \[(.*?)\]\." % re.escape(r), src, re.S)
    for f in m.group(1).split(";"):
        f = f.strip()
        q = re.match(r"(.*) \((\w+?)_(\w+) x\)$", f, re.S)
        rr, fn = q.group(1), q.group(3)
        if fn not in names: continue
        R = "reify_%s" % t if not args else "(reify_Pedigree_ f)"
        nm = "at_%s_%s" % (t, fn)
        out.append('Lemma %s%s : is_field %s (ix fields_%s "%s") (%s) %s_%s over_%s_%s.\nProof. is_field_tac @over_%s_%s @set_%s_%s. Qed.' % (nm, args, R, t, fn, rr, t, fn, t, fn, t, fn, t, fn))
        hints.append('Global Hint Extern 1 (is_field %s (ix fields_%s "%s") _ _ _) => apply %s : hfields.' % (R.replace("(reify_Pedigree_ f)", "(reify_Pedigree_ _)"), t, fn, nm))
out.append("Create HintDb hfields discriminated.\n" + "\n".join(hints))
open(D + "HeapFields.v", "w").write("\n".join(out) + "\n")
