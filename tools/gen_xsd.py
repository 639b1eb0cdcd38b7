#!/usr/bin/env python3
"""Writes rocq/theories/Xsd.v: the elements and attributes that /repo/schema/bom-1.7.xsd defines,
or, with --order, rocq/theories/XsdOrder.v: the order in which it defines the elements, and how many.

An anonymous type gets the name of its place, e.g. componentType/licenses. Every simple type is
the type "". Number of occurrences, xs:any and xs:anyAttribute are left out. The order gives
every element of a type a rank: those of a sequence one after the other, the alternatives of a
choice all from the same rank on; what may be repeated as a whole has one rank."""
import sys
import xml.etree.ElementTree as ET

X = '{http://www.w3.org/2001/XMLSchema}'
args = [a for a in sys.argv[1:] if a != '--order']
repo = args[0] if args else '/repo'
root = ET.parse(f'{repo}/schema/bom-1.7.xsd').getroot()
named = {c.get('name'): c for c in root if c.tag in (X + 'complexType', X + 'simpleType')}
groups = {c.get('name'): c for c in root if c.tag == X + 'attributeGroup'}
elements = {c.get('name'): c for c in root if c.tag == X + 'element'}
out = {}


def local(q):
    return q.split(':', 1)[1] if q.startswith('bom:') else None


def reference(q):
    """The name of the type a reference leads to"""
    n = local(q)
    if n is None or named[n].tag == X + 'simpleType':
        return ''
    define(n, named[n])
    return n


def type_of(e, place):
    """The name of the type of an element"""
    if e.get('type'):
        return reference(e.get('type'))
    c = e.find(X + 'complexType')
    if c is not None:
        define(place, c)
        return place
    return ''


def define(name, c):
    if name in out:
        return
    out[name] = entry = {'attrs': [], 'kids': [], 'text': c.get('mixed') == 'true'}
    walk(c, name, entry)


def walk(c, name, entry):
    for x in c:
        if x.tag == X + 'attribute':
            entry['attrs'].append(x.get('name') or x.get('ref').split(':')[1])
        elif x.tag == X + 'attributeGroup':
            walk(groups[local(x.get('ref'))], name, entry)
        elif x.tag == X + 'element':
            if x.get('ref'):
                e = elements[local(x.get('ref'))]
                k, t = e.get('name'), type_of(e, e.get('name'))
            else:
                k = x.get('name')
                t = type_of(x, name + '/' + k)
            old = dict(entry['kids']).get(k)
            assert old in (None, t), (name, k, old, t)
            if old is None:
                entry['kids'].append((k, t))
        elif x.tag in (X + 'sequence', X + 'choice', X + 'all'):
            walk(x, name, entry)
        elif x.tag == X + 'simpleContent':
            entry['text'] = True
            walk(x[0], name, entry)
        elif x.tag == X + 'extension':
            n = reference(x.get('base'))
            if n:
                base = out[n]
                for k in ('attrs', 'kids'):
                    entry[k] += base[k]
                entry['text'] |= base['text']
            else:
                entry['text'] = True
            walk(x, name, entry)
        elif x.tag in (X + 'annotation', X + 'any', X + 'anyAttribute', X + 'assert'):
            pass
        else:
            raise SystemExit(f'{name}: {x.tag}')


def ranks(c, start):
    """The ranks of the elements in a particle that begins at a rank, and the rank behind it"""
    got, end = {}, start
    for x in c:
        if x.tag == X + 'element':
            n = {x.get('name') or local(x.get('ref')): start if c.tag == X + 'choice' else end}
            last = max(n.values()) + 1
        elif x.tag in (X + 'sequence', X + 'choice', X + 'all', X + 'complexContent'):
            n, last = ranks(x, start if c.tag == X + 'choice' else end)
        elif x.tag == X + 'extension':
            b, last = ranks(named[local(x.get('base'))], end) if local(x.get('base')) else ({}, end)
            n, last = ranks(x, last)
            n = {**b, **n}
        else:
            continue
        for k in n:
            if got.get(k, n[k]) != n[k]:
                return {k: start for k in {**got, **dict(every(c))}}, start + 1
        got.update(n)
        end = max(end, last)
    if c.get('maxOccurs', '1') != '1' or c.tag == X + 'all':
        return {k: start for k in got}, start + 1
    return got, end


def most(c):
    """How often an element may occur in a particle at most"""
    got = {}
    for x in c:
        if x.tag == X + 'element':
            n = {x.get('name') or local(x.get('ref')): times(x)}
        elif x.tag in (X + 'sequence', X + 'choice', X + 'all', X + 'complexContent'):
            n = most(x)
        elif x.tag == X + 'extension':
            n = most(x)
            for k, v in (most(named[local(x.get('base'))]) if local(x.get('base')) else {}).items():
                n[k] = n.get(k, 0) + v
        else:
            continue
        for k in n:
            got[k] = max(got.get(k, 0), n[k]) if c.tag == X + 'choice' else got.get(k, 0) + n[k]
    return {k: got[k] * times(c) for k in got}


def times(c):
    n = c.get('maxOccurs', '1')
    return 1e9 if n == 'unbounded' else int(n)


def every(c):
    for x in c:
        if x.tag == X + 'element':
            yield x.get('name') or local(x.get('ref')), None
        elif x.tag in (X + 'sequence', X + 'choice', X + 'all'):
            yield from every(x)


define_only = define


def define(name, c):
    order.setdefault(name, ranks(c, 0)[0])
    limit.setdefault(name, most(c))
    define_only(name, c)


order, limit = {}, {}
for e in elements.values():
    type_of(e, e.get('name'))
q = lambda s: '"' + s.replace('"', '""') + '"'
if '--order' in sys.argv:
    assert all(set(order[n]) == set(dict(out[n]['kids'])) for n in out)
    print('''(** Generated by tools/gen_xsd.py --order from /repo/schema/bom-1.7.xsd: for every type of
    elements the ranks of the elements within it. An element with a lower rank comes before
    one with a higher rank. Within a choice, the alternatives begin at the same rank; what may
    be repeated as a whole has one rank. *)
From Verif Require Import Base OrderSpec.
Local Open Scope string_scope.

Definition order_1_7 : orders :=
  [("", []);
''' + ';\n'.join(f'   ({q(n)}, [{"; ".join(f"({q(k)}, {r})" for k, r in order[n].items())}])' for n in out) + '].')
    print('''
(** The elements of which there may be at most one *)
Definition limits_1_7 : limits :=
  [("", []);
''' + ';\n'.join(f'   ({q(n)}, [{"; ".join(q(k) for k, r in limit[n].items() if r == 1)}])' for n in out) + '].')
    raise SystemExit
lines = []
for n in out:
    e = out[n]
    lines.append(f'   ({q(n)}, mkType [{"; ".join(map(q, e["attrs"]))}] [{"; ".join(f"({q(k)}, {q(t)})" for k, t in e["kids"])}] {"true" if e["text"] else "false"})')
print('''(** Generated by tools/gen_xsd.py from /repo/schema/bom-1.7.xsd: for every type of elements
    its attributes, the elements within it with their types, and whether it holds text. The
    type "" is that of elements that hold text only. Left out: order, number of occurrences,
    which values a simple type allows, xs:any and xs:anyAttribute. *)
From Verif Require Import Base XsdSpec.
Local Open Scope string_scope.

Definition xsd_1_7 : xsd :=
  [("", mkType [] [] true);
''' + ';\n'.join(lines) + '].')
