#!/usr/bin/env python3
"""Compares the model with the outputs recorded in /repo/testdata/snapshots.

The snapshots were written by the tests of the project (roundtrip_test.go,
encode_test.go): decode a file of /repo/testdata, encode it again, indented, or
convert it to a version. For each of them the model is run on the bytes of the
input and its output compared byte for byte; only a final newline that the
snapshot tool adds is tolerated. Needs the compiled model in rocq/theories.

Usage: tools/snapshots.py [directory for the generated file]
"""
import glob, os, re, subprocess, sys, tempfile

R = '/repo/testdata/'
S = R + 'snapshots/cyclonedx-go-'
ROCQ = os.path.join(os.path.dirname(os.path.abspath(__file__)), '..', 'rocq')

HEAD = '''From Verif Require Import Base Types Consts Version ConvertModel ConvertSpec JsonModel JsonText XmlModel XmlText PropsXmlText.
From Coq Require Import String Ascii List.
Local Open Scope string_scope.
Inductive outcome := Same | Differ (offset : nat) (model snapshot : string) | Failed.
Fixpoint first_n (n : nat) (s : string) := match n, s with S m, String a r => String a (first_n m r) | _, _ => "" end.
Fixpoint cmp (n : nat) (a b : string) : outcome := match a, b with
 | "", "" => Same
 | "", String x "" => if Ascii.eqb x "010" then Same else Differ n a b
 | String x a', String y b' => if Ascii.eqb x y then cmp (S n) a' b' else Differ n (first_n 80 a) (first_n 80 b)
 | _, _ => Differ n (first_n 80 a) (first_n 80 b) end.
Definition json_rt (i w : string) := match unmarshal_bom i zero_BOM with Ok b => match json_encode_text true true b with Ok t => cmp 0 t w | _ => Failed end | _ => Failed end.
Definition json_ev v (i w : string) := match unmarshal_bom i zero_BOM with Ok b => match json_encode_version_text true true v b with Ok t => cmp 0 t w | _ => Failed end | _ => Failed end.
Definition xml_rt (i w : string) := match xml_unmarshal xmlNamespaces i zero_BOM with Ok b => match xml_encode_text true b with Ok t => cmp 0 t w | _ => Failed end | _ => Failed end.
Definition xml_ev v (i w : string) := match xml_unmarshal xmlNamespaces i zero_BOM with Ok b => match xml_encode_version_text true v b with Ok (Ok t) => cmp 0 t w | _ => Failed end | _ => Failed end.
'''

def read(f):
    return open(f, encoding='utf-8', newline='').read()

def literal(s):
    return '"' + s.replace('"', '""') + '"'

cases = []
for ext, kind in (('json', 'JSON'), ('xml', 'XML')):
    for f in sorted(glob.glob(R + '*.' + ext)):
        base = os.path.basename(f)
        cases.append((base, f, S + 'TestRoundTrip%s-func1-%s' % (kind, base), ext + '_rt'))
for v in '23456':
    cases.append(('json 1.' + v, R + 'valid-bom.json', S + 'TestJsonBOMEncoder_EncodeVersion-func3-1.%s.bom.json' % v, 'json_ev v1_' + v))
for v in '0123456':
    cases.append(('xml 1.' + v, R + 'valid-bom.xml', S + 'TestXmlBOMEncoder_EncodeVersion-func1-1.%s.bom.xml' % v, 'xml_ev v1_' + v))

out = HEAD
for name, given, want, run in cases:
    out += 'Eval vm_compute in ("%s", %s\n%s\n%s).\n' % (name, run, literal(read(given)), literal(read(want)))
scratch = sys.argv[1] if len(sys.argv) > 1 else tempfile.mkdtemp()
path = os.path.join(scratch, 'Snapshots.v')
open(path, 'w', newline='').write(out)
done = subprocess.run('ulimit -s unlimited; coqc -Q theories Verif ' + path, shell=True, cwd=ROCQ, capture_output=True, text=True)
same = len(re.findall(r', Same\)', done.stdout))
recorded = len(os.listdir(R + 'snapshots'))
print('%d of %d snapshots reproduced' % (same, recorded))
if same != recorded:
    print('\n'.join(l for l in done.stdout.splitlines() if 'Same' not in l and 'outcome' not in l))
    print(done.stderr)
    sys.exit(1)
