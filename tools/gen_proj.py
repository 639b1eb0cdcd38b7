#!/usr/bin/env python3
"""Generate rocq/theories/Proj.v: a tactic that reduces the projections of all Go structs."""
import sys, os
sys.path.insert(0, os.path.dirname(os.path.abspath(__file__)))
from gen_types_order import order, cname, structs
out = ["(** GENERATED by tools/gen_proj.py: reduce every projection of an explicit record. *)", "From Verif Require Import Base Types.", "Ltac projs := cbn ["]
line = "  "
for n in order:
    if n in structs:
        for f in structs[n]["fields"]:
            t = cname(n) + "_" + f["name"]
            if len(line) + len(t) > 140:
                out.append(line); line = "  "
            line += t + " "
out.append(line + "].")
out += [out[2].replace("projs :=", "projs_in H :=")] + [l for l in out[3:-1]] + [out[-1][:-1] + " in H."]
open("/verif/rocq/theories/Proj.v", "w").write("\n".join(out) + "\n")
