"""Find out from the official schemas in /repo/schema which specification version
introduced each field of each Go struct and each value of each enumeration.

The Go types and the schemas are walked in parallel, from BOM downwards, once per
version and format (JSON Schema 1.2-1.7, XSD 1.0-1.7). A field counts as defined in a
version as soon as one of the two formats defines it at one place where the struct is
used."""
import json, re, sys, os
import xml.etree.ElementTree as ET
sys.path.insert(0, os.path.dirname(__file__))
from goparse import parse_file

S, A, C = parse_file("/repo/cyclonedx.go")
JV = ["1.2", "1.3", "1.4", "1.5", "1.6", "1.7"]
XV = ["1.0", "1.1"] + JV

fields = {}   # (struct, field) -> {"json": set, "xml": set}
enums = {}    # alias -> value -> {"json": set, "xml": set}
free = {}     # alias -> {"json": set, "xml": set}: versions where the value is an unrestricted string

def mark(T, F, fmt, v):
    fields.setdefault((T, F), {"json": set(), "xml": set()})[fmt].add(v)
def mark_enum(alias, vals, fmt, v):
    for x in vals:
        enums.setdefault(alias, {}).setdefault(x, {"json": set(), "xml": set()})[fmt].add(v)

def tag(f, fmt):
    m = re.search(fmt + r':"([^"]*)"', f["tag"])
    if not m:
        return None
    parts = m.group(1).split(",")
    return parts[0], parts[1:]

def gounder(t):
    while t[0] == "named" and t[1] in A:
        t = A[t[1]][0]
    return t

# ---------------------------------------------------------------- JSON
class J:
    def __init__(self, v):
        self.v = v
        self.root = json.load(open("/repo/schema/bom-%s.schema.json" % v))
        self.seen = set()
    def expand(self, n):
        """the alternatives of a schema node, references resolved"""
        out, stack, done = [], [n], set()
        while stack:
            n = stack.pop()
            if id(n) in done or not isinstance(n, dict):
                continue
            done.add(id(n))
            if "$ref" in n:
                r = n["$ref"]
                if r.startswith("#/"):
                    t = self.root
                    for p in r[2:].split("/"):
                        t = t[p]
                    stack.append(t)
                else:
                    out.append({"external": r})
            for k in ("oneOf", "anyOf", "allOf"):
                stack.extend(n.get(k, []))
            out.append(n)
        return out
    def expand_all(self, ns):
        out, ids = [], set()
        for n in ns:
            for m in self.expand(n):
                if id(m) not in ids:
                    ids.add(id(m)); out.append(m)
        return out
    def prop(self, ns, name):
        return [n["properties"][name] for n in self.expand_all(ns) if name in n.get("properties", {})]
    def items(self, ns):
        out = []
        for n in self.expand_all(ns):
            if "items" in n:
                it = n["items"]
                out.extend(it if isinstance(it, list) else [it])
        return out
    def walk(self, t, ns, owner=None):
        if not ns:
            return
        if t[0] == "ptr":
            return self.walk(t[1], ns)
        if t[0] == "slice":
            return self.walk(t[1], self.items(ns))
        if t[0] == "named" and t[1] in A:
            u = A[t[1]][0]
            if u == ("prim", "string"):
                es = self.expand_all(ns)
                vals = [x for n in es for x in n.get("enum", []) if x is not None] + [n["const"] for n in es if "const" in n]
                mark_enum(t[1], vals, "json", self.v)
                if not vals:
                    free.setdefault(t[1], {"json": set(), "xml": set()})["json"].add(self.v)
                return
            return self.walk(u, ns)
        if t[0] != "named":
            return
        T = t[1]
        if T not in S:
            return
        key = (T, tuple(sorted(id(n) for n in ns)))
        if key in self.seen:
            return
        self.seen.add(key)
        es = self.expand_all(ns)
        F = {f["name"]: f for f in S[T]["fields"]}
        def sub(name, nodes):
            if nodes:
                mark(T, name, "json", self.v)
                self.walk(F[name]["type"], nodes)
        hasp = lambda n, p: p in n.get("properties", {})
        if T == "JSFSignature" or T == "JSFSigner" or T == "JSFPublicKey":
            for s in ("JSFSignature", "JSFSigner", "JSFPublicKey"):
                for f in S[s]["fields"]:
                    mark(s, f["name"], "json", self.v)
            return
        if T == "ToolsChoice":
            sub("Tools", [n for n in es if "items" in n])
            for p in ("components", "services"):
                sub(p.capitalize(), self.prop(ns, p))
        elif T == "EvidenceIdentityChoice":
            sub("Identity", [n for n in es if hasp(n, "field")])
            sub("Identities", [n for n in es if "items" in n])
        elif T == "MLDatasetChoice":
            sub("Ref", [n for n in es if hasp(n, "ref")])
            sub("ComponentData", [n for n in es if hasp(n, "type")])
        elif T == "EnvironmentVariableChoice":
            sub("Property", [n for n in es if hasp(n, "name")])
            sub("Value", [n for n in es if n.get("type") == "string"])
        elif T == "PatentChoice":
            sub("Patent", [n for n in es if hasp(n, "patentNumber")])
            sub("PatentFamily", [n for n in es if hasp(n, "familyId")])
        elif T == "CertificateState":
            sub("Predefined", [n for n in es if hasp(n, "state")])
            sub("Custom", [n for n in es if hasp(n, "name")])
        elif T == "CertificateExtension":
            sub("Common", [n for n in es if hasp(n, "commonExtensionName")])
            sub("Custom", [n for n in es if hasp(n, "customExtensionName")])
        elif T == "AsserterChoice":
            sub("Organization", [n for n in es if hasp(n, "url")])
            sub("Individual", [n for n in es if hasp(n, "email")])
            sub("BOMRef", [n for n in es if n.get("type") == "string"])
        else:
            if T.startswith("IKEv2") and T != "IKEv2TransformTypes":
                sub("BOMRef", [n for n in es if n.get("type") == "string"])
            for f in S[T]["fields"]:
                tg = tag(f, "json")
                if tg is None or tg[0] in ("-", ""):
                    continue
                sub(f["name"], self.prop(ns, tg[0]))

# ---------------------------------------------------------------- XSD
XS = "{http://www.w3.org/2001/XMLSchema}"
class X:
    def __init__(self, v):
        self.v = v
        self.root = ET.parse("/repo/schema/bom-%s.xsd" % v).getroot()
        self.types, self.elements, self.groups = {}, {}, {}
        for e in self.root:
            if e.tag in (XS + "complexType", XS + "simpleType"):
                self.types[e.get("name")] = e
            elif e.tag == XS + "element":
                self.elements[e.get("name")] = e
            elif e.tag == XS + "group":
                self.groups[e.get("name")] = e
        self.seen = set()
    def typ(self, e):
        """the type node of an element or attribute"""
        t = e.get("type")
        if t is not None:
            n = t.split(":")[-1]
            if t.startswith("bom:") and n in self.types:
                return self.types[n]
            return ET.Element("builtin", name=t)
        for c in e:
            if c.tag in (XS + "complexType", XS + "simpleType"):
                return c
        return ET.Element("builtin", name="none")
    def parts(self, ty):
        """(elements, attributes, text types) of a type"""
        els, ats, txt = [], [], []
        def go(n):
            for c in n:
                if c.tag == XS + "element":
                    if c.get("ref"):
                        r = self.elements.get(c.get("ref").split(":")[-1])
                        if r is not None:
                            els.append(r)
                    else:
                        els.append(c)
                elif c.tag == XS + "attribute":
                    ats.append(c)
                elif c.tag == XS + "group":
                    go(self.groups[c.get("ref").split(":")[-1]])
                elif c.tag in (XS + "extension", XS + "restriction"):
                    b = c.get("base")
                    if b and b.startswith("bom:"):
                        bt = self.types[b.split(":")[-1]]
                        if bt.tag == XS + "simpleType":
                            txt.append(bt)
                        else:
                            go(bt)
                    elif b:
                        txt.append(ET.Element("builtin", name=b))
                    go(c)
                elif c.tag in (XS + "sequence", XS + "choice", XS + "all", XS + "complexContent", XS + "simpleContent"):
                    go(c)
        if ty.tag == XS + "simpleType" or ty.tag == "builtin":
            txt.append(ty)
        else:
            go(ty)
        return els, ats, txt
    def kids(self, tys, name):
        return [self.typ(e) for t in tys for e in self.parts(t)[0] if e.get("name") == name]
    def attr(self, tys, name):
        return [self.typ(a) for t in tys for a in self.parts(t)[1] if a.get("name") == name]
    def text(self, tys):
        return [x for t in tys for x in self.parts(t)[2]]
    def enumvals(self, t):
        out = []
        for r in t.iter(XS + "enumeration"):
            out.append(r.get("value"))
        for r in t.iter(XS + "restriction"):
            b = r.get("base")
            if b and b.startswith("bom:") and self.types[b.split(":")[-1]] is not t:
                out += self.enumvals(self.types[b.split(":")[-1]])
        return out
    def walk(self, t, tys):
        """[tys]: the XSD types of the elements (or attributes) the Go value becomes"""
        if not tys:
            return
        if t[0] in ("ptr", "slice"):
            return self.walk(t[1], tys)
        if t[0] == "named" and t[1] in A:
            u = A[t[1]][0]
            if u == ("prim", "string"):
                vals = [x for ty in tys for x in self.enumvals(ty)]
                for ty in tys:                       # enumeration behind simple content
                    for x in self.parts(ty)[2]:
                        if x.tag == XS + "simpleType":
                            vals += self.enumvals(x)
                mark_enum(t[1], set(vals), "xml", self.v)
                if not vals:
                    free.setdefault(t[1], {"json": set(), "xml": set()})["xml"].add(self.v)
                return
            return self.walk_list_type(t[1], u, tys)
        if t[0] != "named" or t[1] not in S:
            return
        T = t[1]
        key = (T, tuple(sorted(id(x) for x in tys)))
        if key in self.seen:
            return
        self.keep = getattr(self, "keep", []); self.keep.extend(tys)   # ids stay unique
        self.seen.add(key)
        F = {f["name"]: f for f in S[T]["fields"]}
        def sub(name, nodes, ty=None):
            if nodes:
                mark(T, name, "xml", self.v)
                self.walk(ty or F[name]["type"], nodes)
        if T == "ToolsChoice":
            sub("Tools", self.kids(tys, "tool"))
            sub("Components", self.kids(self.kids(tys, "components"), "component"))
            sub("Services", self.kids(self.kids(tys, "services"), "service"))
        elif T == "Evidence":
            sub("Identity", self.kids(tys, "identity"))
            sub("Occurrences", self.kids(self.kids(tys, "occurrences"), "occurrence"))
            sub("Callstack", self.kids(tys, "callstack"))
            sub("Licenses", self.kids(tys, "licenses"))
            sub("Copyright", self.kids(self.kids(tys, "copyright"), "text"))
        elif T == "Copyright":
            sub("Text", tys)
        elif T == "EvidenceIdentityChoice":
            sub("Identity", tys)
            # several <identity> elements from the version whose maxOccurs allows them
            for ty in self.types.values():
                for e in self.parts(ty)[0] if ty.tag == XS + "complexType" else []:
                    if e.get("name") == "identity" and e.get("maxOccurs") == "unbounded":
                        sub("Identities", tys)
        elif T == "MLDatasetChoice":
            sub("Ref", self.kids(tys, "ref"))
            sub("ComponentData", [t_ for t_ in tys if self.kids([t_], "type")] or self.kids(tys, "componentData"))
        elif T == "Dependency":
            sub("Ref", self.attr(tys, "ref"))
            sub("Dependencies", self.kids(tys, "dependency"))
            sub("Provides", self.kids(tys, "provides"))
        elif T == "DataClassification":
            if self.attr(tys, "flow"):
                sub("Flow", self.attr(tys, "flow"))
            sub("Classification", self.text(tys) or self.kids(tys, "classification") or self.kids(tys, "classification"))
            for at in ("name", "description"):
                sub(at.capitalize(), self.attr(tys, at))
            sub("Governance", self.kids(tys, "governance"))
            sub("Source", self.kids(self.kids(tys, "source"), "url"))
            sub("Destination", self.kids(self.kids(tys, "destination"), "url"))
        elif T == "PatentChoice":
            sub("Patent", self.kids(tys, "patent"))
            sub("PatentFamily", self.kids(tys, "patentFamily"))
        elif T in ("CertificateState", "CertificateExtension"):
            for name, inner in (("Predefined", "PredefinedCertificateState"), ("Custom", "CustomCertificateState"),
                                ("Common", "CommonCertificateExtension"), ("Custom", "CustomCertificateExtension")):
                if name in F and F[name]["type"] == ("ptr", ("named", inner)):
                    sub(name, tys)
        else:
            if T.startswith("IKEv2") and T != "IKEv2TransformTypes":
                sub("BOMRef", self.text(tys))
            for f in S[T]["fields"]:
                tg = tag(f, "xml")
                if tg is None or tg[0] == "-":
                    continue
                if f["name"] == "XMLName" or f["name"] == "XMLNS":
                    mark(T, f["name"], "xml", self.v); continue
                name, opts = tg
                if "attr" in opts:
                    sub(f["name"], self.attr(tys, name))
                elif "chardata" in opts:
                    sub(f["name"], self.text(tys))
                else:
                    ns = tys
                    for p in name.split(">"):
                        ns = self.kids(ns, p)
                    sub(f["name"], ns)
    def walk_list_type(self, name, u, tys):
        if name == "Licenses":
            T = "LicenseChoice"
            lic = self.kids(tys, "license"); ex = self.kids(tys, "expression"); exd = self.kids(tys, "expression-detailed")
            if lic:
                mark(T, "License", "xml", self.v); self.walk(("named", "License"), lic)
            if ex or exd:
                mark(T, "Expression", "xml", self.v)
                if self.attr(ex + exd, "acknowledgement"):
                    mark(T, "Acknowledgement", "xml", self.v)
                    self.walk(("named", "LicenseAcknowledgement"), self.attr(ex + exd, "acknowledgement"))
                if self.attr(ex + exd, "bom-ref"):
                    mark(T, "BOMRef", "xml", self.v)
            if exd:
                for n, f in (("licensing", "Licensing"), ("properties", "Properties")):
                    if self.kids(exd, n):
                        mark(T, f, "xml", self.v)
                if self.kids(exd, "details"):
                    mark(T, "ExpressionDetails", "xml", self.v)
        elif name == "EnvironmentVariables":
            T = "EnvironmentVariableChoice"
            p = self.kids(tys, "environmentVar") ; w = self.kids(tys, "value")
            if p:
                mark(T, "Property", "xml", self.v); self.walk(("named", "Property"), p)
            if w:
                mark(T, "Value", "xml", self.v)
        else:
            raise SystemExit("list type " + name)

def run():
    for v in JV:
        j = J(v)
        j.walk(("named", "BOM"), [j.root])
        mark("BOM", "JSONSchema", "json", v)
    for v in XV:
        x = X(v)
        x.walk(("named", "BOM"), [x.typ(x.elements["bom"])])
    ver = lambda s: min(s) if s else None
    res = {}
    for T in S:
        for f in S[T]["fields"]:
            d = fields.get((T, f["name"]), {"json": set(), "xml": set()})
            res[(T, f["name"])] = (ver(d["json"]), ver(d["xml"]))
    return res

if __name__ == "__main__":
    res = run()
    for T in S:
        print(T + ": " + " ".join("%s=%s/%s" % (f["name"], *res[(T, f["name"])]) for f in S[T]["fields"]))
    print()
    for a in sorted(set(enums) | set(free)):
        print(a, "FREE", {k: sorted(x) for k, x in free.get(a, {}).items()}, {x: (min(d["json"] or {"-"}), min(d["xml"] or {"-"})) for x, d in enums.get(a, {}).items()})
