"""Translate the JSON schemas in /repo/schema (1.2 and 1.3 in their strict form) to the
normal form of SchemaSpec.v and write rocq/theories/Schemas.v.

Each node becomes one of: Text, Filled, Words, Whole, Number, Truth, ListOf s, Object members
required, Ref name, OneOf alternatives, Anything. Keywords that only narrow a node (const,
pattern, format, minimum, oneOf with nothing but required, not, if, ...) are left out, so
every valid document also conforms to the translation. Three exceptions, where the
translation is narrower: an object without a type but with properties is taken to be an
object, an object without additionalProperties to have no other members, and publicKey
of jsf-0.82 to have the members of its three cases."""
import json, sys
V = ["1.2-strict", "1.3-strict", "1.4", "1.5", "1.6", "1.7"]
ROOT = "/repo/schema/"
INFO = {"title", "description", "examples", "meta:enum", "$comment", "$id", "$schema", "deprecated", "default", "format", "pattern",
        "minLength", "maxLength", "minItems", "maxItems", "uniqueItems", "additionalItems", "minimum", "maximum", "definitions"}
jsf = json.load(open(ROOT + "jsf-0.82.schemax.json"))

def narrowing(n):
    """only restricts an object that is described elsewhere"""
    return set(n) - INFO <= {"required", "not", "if", "then", "else"}

def norm(n, where):
    if n is True:
        return ("Anything",)
    keys = set(n) - INFO
    if "$ref" in n:
        r = n["$ref"]
        assert keys <= {"$ref", "type"}, (where, keys)
        if r.startswith("#/definitions/"):
            return ("Ref", ("jsf:" if where.startswith("jsf") else "") + r[len("#/definitions/"):])
        if r.startswith("jsf-0.82") and r.endswith("#/definitions/signature"):
            return ("Ref", "jsf:signature")
        if r.startswith("spdx") or r.startswith("cryptography-defs"):   # enumerations of strings
            return ("Text",)
        if r == "#":
            return ("Ref", "")
        raise Exception((where, r))
    alts = [k for k in ("oneOf", "anyOf", "allOf") if k in n]
    if where == "jsf:publicKey":
        names = ["kty", "crv", "x", "y", "n", "e"]
        return ("Object", [(m, ("Text",)) for m in names], n["required"])
    if "properties" in n:
        assert n.get("type", "object") == "object", where
        assert n.get("additionalProperties", False) is False, where
        for k in alts:
            assert all(narrowing(a) for a in n[k]), (where, k)
        return ("Object", [(m, norm(x, where + "/" + m)) for m, x in n["properties"].items()], n.get("required", []))
    if alts:
        assert len(alts) == 1 and keys <= {alts[0], "type", "required", "additionalProperties"}, (where, keys)
        assert n.get("type") in (None, "object", "array", "string"), where
        l = [dict(a) for a in n[alts[0]]]
        for a in l:
            for k in ("type", "required"):
                if k in n and k not in a and "$ref" not in a:
                    a[k] = n[k]
        l = [norm(a, where + "/" + alts[0] + str(i)) for i, a in enumerate(l)]
        if alts[0] == "allOf":
            assert len(l) == 1, where
        if len(l) == 1:
            return l[0]
        return ("OneOf", l)
    t = n.get("type")
    assert not isinstance(t, list), where
    if t == "array" and isinstance(n.get("items"), list):
        assert len(n["items"]) == 1 and n["additionalItems"] is False, where
        return ("ListOf", norm(n["items"][0], where + "/items"))
    if t == "array":
        return ("ListOf", norm(n["items"], where + "/items") if "items" in n else ("Anything",))
    if t == "object":
        assert keys <= {"type", "additionalProperties", "required"}, (where, keys)
        return ("Object", [], n.get("required", []))
    assert keys <= {"type", "enum", "const"}, (where, keys)
    if "enum" in n:
        assert t in (None, "string") and all(isinstance(x, str) for x in n["enum"]), where
        return ("Words", n["enum"])
    if t == "string":
        return ("Filled",) if n.get("minLength", 0) > 0 else ("Text",)
    if t == "integer":
        return ("Whole",)
    if t == "number":
        return ("Number",)
    if t == "boolean":
        return ("Truth",)
    if not keys:
        return ("Anything",)
    raise Exception((where, n))

def load(v):
    r = json.load(open(ROOT + "bom-%s.schema.json" % v))
    defs = {"": norm(r, "")}
    for k, x in r["definitions"].items():
        defs[k] = norm(x, k)
    used = set()
    def refs(s):
        if s[0] == "Ref":
            used.add(s[1])
        elif s[0] == "ListOf":
            refs(s[1])
        elif s[0] == "Object":
            [refs(x) for _, x in s[1]]
        elif s[0] == "OneOf":
            [refs(x) for x in s[1]]
    [refs(s) for s in defs.values()]
    if "jsf:signature" in used:
        for k, x in jsf["definitions"].items():
            defs["jsf:" + k] = norm(x, "jsf:" + k)
    return defs

def coq(s):
    k = s[0]
    if k == "Words":
        return "Words [%s]" % "; ".join('"%s"' % w for w in s[1])
    if k in ("Text", "Filled", "Whole", "Number", "Truth", "Anything"):
        return k
    if k == "Ref":
        return 'Ref "%s"' % s[1]
    if k == "ListOf":
        return "ListOf (%s)" % coq(s[1])
    if k == "OneOf":
        return "OneOf [%s]" % "; ".join(coq(x) for x in s[1])
    return "Object [%s] [%s]" % ("; ".join('("%s", %s)' % (m, coq(x)) for m, x in s[1]), "; ".join('"%s"' % m for m in s[2]))

if __name__ == "__main__":
    out = ["(** Generated by tools/gen_schema.py from /repo/schema: the JSON schemas in the normal form",
           "    of SchemaSpec.v. What is left out and what is narrowed is said there. *)",
           "From Verif Require Import Base JsonModel SchemaSpec.", "Local Open Scope string_scope."]
    for v in V:
        n = v.replace("-strict", "").replace(".", "_")
        out.append("")
        out.append("(** /repo/schema/bom-%s.schema.json%s *)" % (v, ", jsf-0.82.schemax.json" if any(k.startswith("jsf:") for k in load(v)) else ""))
        out.append("Definition schema_%s : schemas :=" % n)
        d = load(v)
        out.append("  [" + ";\n   ".join('("%s", %s)' % (k, coq(x)) for k, x in d.items()) + "].")
    open(sys.argv[1], "w").write("\n".join(out) + "\n")
