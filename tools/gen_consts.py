#!/usr/bin/env python3
"""Generate rocq/theories/Consts.v: the string constants of /repo/cyclonedx.go."""
import sys
sys.path.insert(0, "/verif/tools")
from goparse import parse_file
structs, aliases, consts = parse_file("/repo/cyclonedx.go")
out = ['(** GENERATED by tools/gen_consts.py: the string constants of /repo/cyclonedx.go. *)',
       'From Verif Require Import Base Types.', 'Local Open Scope string_scope.', '']
types = set(structs) | set(aliases)
for n, t, v, ln in consts:
    name = n if n not in types and n != "BOMFormat" else n + "_const"
    out.append('Definition %s : %s := "%s". (* /repo/cyclonedx.go:%d *)' % (name, t if t else "string", v, ln))
open("/verif/rocq/theories/Consts.v", "w").write("\n".join(out) + "\n")
