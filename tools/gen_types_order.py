"""Dependency order and zero values of the Go structs, shared by the generators."""
import sys
import os
sys.path.insert(0, os.path.dirname(os.path.abspath(__file__)))
from goparse import parse_file

REN = {"Parameter": "Parameter_t"}
def cname(n): return REN.get(n, n)

structs, aliases, consts = parse_file("/repo/cyclonedx.go")

def deps(t):
    if t[0] in ("ptr", "slice"): return deps(t[1])
    if t[0] == "named": return {t[1]}
    return set()

def coq_ty(t, inside=None):
    if t[0] == "ptr": return "ptr (%s)" % coq_ty(t[1], inside)
    if t[0] == "slice": return "slice (%s)" % coq_ty(t[1], inside)
    if t[0] == "xmlname": return "XMLName"
    if t[0] == "prim":
        return {"string": "string", "int": "Z", "bool": "bool", "float32": "gofloat", "float64": "gofloat"}[t[1]]
    if inside == "Pedigree" and t[1] == "Component": return "C"
    if inside == "Component" and t[1] == "Pedigree": return "Pedigree_ Component"
    return cname(t[1])

def zero(t):
    if t[0] in ("ptr", "slice"): return "None"
    if t[0] == "xmlname": return 'mkXMLName "" ""'
    if t[0] == "prim":
        return {"string": '""', "int": "0%Z", "bool": "false", "float32": "fzero", "float64": "fzero"}[t[1]]
    if t[1] in aliases: return zero(aliases[t[1]][0])
    return "zero_" + cname(t[1])

order, done = [], set()
def visit(n, stack=()):
    if n in done or n in aliases and n not in structs and n in done: return
    if n in stack:
        return
    if n in aliases:
        for d in sorted(deps(aliases[n][0])): visit(d, stack + (n,))
    elif n in structs:
        for f in structs[n]["fields"]:
            for d in sorted(deps(f["type"])):
                if (n, d) in (("Pedigree", "Component"),): continue
                visit(d, stack + (n,))
    if n not in done:
        done.add(n); order.append(n)
for n in list(aliases) + list(structs): visit(n)

