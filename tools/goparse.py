"""Parse the Go type declarations of /repo/cyclonedx.go (and the helper structs
declared in cyclonedx_json.go / cyclonedx_xml.go) into a small AST."""
import re

PRIM = {"string": "TStr", "int": "TInt", "bool": "TBool", "float32": "TF32", "float64": "TF64",
        "interface{}": "TAny"}

def parse_type(t):
    t = t.strip()
    if t.startswith("*"):
        return ("ptr", parse_type(t[1:]))
    if t.startswith("[]"):
        return ("slice", parse_type(t[2:]))
    if t == "xml.Name":
        return ("xmlname",)
    if t in PRIM:
        return ("prim", t)
    return ("named", t)

def strip_comment(l):
    # no string in the parsed files contains //
    return re.sub(r"//.*$", "", l).rstrip()

def parse_fields(body):
    fields = []
    for l, ln in body:
        l = strip_comment(l).strip()
        if not l:
            continue
        m = re.match(r"^(?:(\w+)\s+)?([\w\*\[\]\.{}]+)\s*(?:`(.*)`)?$", l)
        if not m:
            raise SystemExit("field? %r" % l)
        name, ty, tag = m.group(1), m.group(2), m.group(3) or ""
        emb = False
        if name is None:
            emb = True
            name = ty.lstrip("*").split(".")[-1]
        fields.append(dict(name=name, type=parse_type(ty), tag=tag, embedded=emb, line=ln))
    return fields

def parse_file(path):
    structs, aliases, consts = {}, {}, []
    lines = open(path).read().split("\n")
    i = 0
    depth_type = False
    while i < len(lines):
        l = strip_comment(lines[i])
        m = re.match(r"^type (\w+) struct \{$", l)
        m2 = re.match(r"^type (\w+) ([\w\*\[\]\.]+)$", l)
        m3 = re.match(r"^type \($", l)
        if m:
            body = []
            j = i + 1
            while lines[j].strip() != "}":
                body.append((lines[j], j + 1))
                j += 1
            structs[m.group(1)] = dict(fields=parse_fields(body), lines=(i + 1, j + 1))
            i = j
        elif re.match(r"^type (\w+) struct\s*\{\}$", l):
            structs[l.split()[1]] = dict(fields=[], lines=(i + 1, i + 1))
        elif m2:
            aliases[m2.group(1)] = (parse_type(m2.group(2)), i + 1)
        elif m3:
            raise SystemExit("type group")
        elif re.match(r"^const \($", l):
            j = i + 1
            while lines[j].strip() != ")":
                m = re.match(r'^\s*(\w+)\s+(\w+)?\s*=\s*"(.*)"', lines[j])
                if m:
                    consts.append((m.group(1), m.group(2), m.group(3), j + 1))
                j += 1
            i = j
        i += 1
    return structs, aliases, consts

if __name__ == "__main__":
    s, a, c = parse_file("/repo/cyclonedx.go")
    def show(t):
        if t[0] == "ptr": return "*" + show(t[1])
        if t[0] == "slice": return "[]" + show(t[1])
        return t[1] if len(t) > 1 else t[0]
    for n, d in s.items():
        print(n, d["lines"])
        for f in d["fields"]:
            print("   ", "EMB" if f["embedded"] else "", f["name"], show(f["type"]), f["tag"])
    print({k: show(v[0]) for k, v in a.items()})
    print(len(s), len(a), len(c))
