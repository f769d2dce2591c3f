#!/usr/bin/env python3
"""Extract the classes of the ecore models (Model/**/*.ecore, read as text) into Coq.

usage: gen_ecore.py REPO OUTDIR

Writes TabEcore.v; needs Names.v in OUTDIR.  Fails on any feature that Ecore.v
cannot express: several supertypes, bounds other than 1 and -1, opposites that
are not mutual, types without counterpart.
"""
import os, re, sys
from xml.parsers import expat

repo, out = sys.argv[1], sys.argv[2]
known = dict((s, n) for n, s in re.findall(r'Definition (n_\w*) : name := Eval vm_compute in u "([^"]*)"',
                                           open(os.path.join(out, 'Names.v')).read()))
new = {}
def nm(s):
    if s in known:
        return known[s]
    if s not in new:
        b = 'x_' + re.sub(r'\W', '_', s)
        k, j = b, 1
        while k in new.values():
            k = '%s_%d' % (b, j); j += 1
        new[s] = k
    return new[s]

class Node:
    def __init__(self, tag, at, line):
        self.tag, self.at, self.line, self.kids = tag, at, line, []
    def of(self, tag):
        return [k for k in self.kids if k.tag == tag]
    def get(self, a):
        return self.at.get(a)
def parse(path):
    st, root = [], []
    p = expat.ParserCreate()
    def start(tag, at):
        n = Node(tag, at, p.CurrentLineNumber)
        (st[-1].kids if st else root).append(n)
        st.append(n)
    def end(tag):
        st.pop().end = p.CurrentLineNumber
    p.StartElementHandler, p.EndElementHandler = start, end
    p.Parse(open(path, 'rb').read(), True)
    return root[0]

PRIM = dict(EString='TText', EDate='TDate', EFloat='TFloat', EInt='TInt', EShort='TInt', EBoolean='TBool')
INST = {'float': 'TFloat', 'int': 'TInt', 'java.lang.String': 'TText', 'java.util.Date': 'TDate', 'java.math.BigInteger': 'TBig'}
ORDER = ['CIM14/CIM14', 'CIM15/CIM15', 'CIM14/CDPSM/Balanced', 'CIM14/CDPSM/GIS_Connectivity', 'CIM14/CDPSM/Unbalanced',
         'CIM14/CPSM/Equipment', 'CIM14/CPSM/StateVariables', 'CIM14/CPSM/Topology', 'CIM14/ENTSOE/Dynamics',
         'CIM14/ENTSOE/Equipment', 'CIM14/ENTSOE/StateVariables', 'CIM14/ENTSOE/Topology', 'CIM15/CDPSM/Asset',
         'CIM15/CDPSM/Balanced', 'CIM15/CDPSM/Connectivity', 'CIM15/CDPSM/Geographical']
found = sorted(os.path.relpath(os.path.join(d, f), os.path.join(repo, 'Model'))[:-6]
               for d, _, fs in os.walk(os.path.join(repo, 'Model')) for f in fs if f.endswith('.ecore'))
assert found == sorted(ORDER), found

res, defs = [], []
for rel in ORDER:
    path = 'Model/%s.ecore' % rel
    root = parse(os.path.join(repo, path))
    top = root.get('name')
    ident = 'ecore_' + '_'.join(rel.lower().split('/')[(1 if rel.split('/')[0] == rel.split('/')[1] else 0):])
    classes, others = {}, {}
    def walk(p, pre):
        for c in p.of('eClassifiers'):
            (classes if c.get('xsi:type') == 'ecore:EClass' else others)[pre + c.get('name')] = c
        for q in p.of('eSubpackages'):
            walk(q, pre + q.get('name') + '/')
    walk(root, '')
    def key(k):
        return '%s.%s.%s' % (top, k.replace('/', '.'), k.split('/')[-1])
    def local(s):
        assert s.startswith('#//'), s
        return s[3:]
    enums = {}
    def etype(s):
        if s.startswith('ecore:EDataType http://www.eclipse.org/emf/2002/Ecore#//'):
            return PRIM[s.split('#//')[1]]
        c = others[local(s)]
        if c.get('xsi:type') == 'ecore:EEnum':
            if local(s) not in enums:
                n = '%s_%s' % (ident[6:], re.sub(r'\W', '_', local(s)))
                ls = [l.get('name') for l in c.of('eLiterals')]
                defs.append('(* %s:%d-%d *)\nDefinition enum_%s : etype := TEnum %s [%s].' %
                            (path, c.line, c.end, n, nm(c.get('name')), '; '.join(map(nm, ls))))
                enums[local(s)] = 'enum_' + n
            return enums[local(s)]
        return INST[c.get('instanceClassName') or c.get('instanceTypeName')]
    feat = {(k, f.get('name')): f for k, c in classes.items() for f in c.of('eStructuralFeatures')}
    rows = []
    for k in sorted(classes, key=key):
        c = classes[k]
        sup = c.get('eSuperTypes')
        assert sup is None or (' ' not in sup and local(sup) in classes), (k, sup)
        at, rf = [], []
        for f in c.of('eStructuralFeatures'):
            n = f.get('name')
            if f.get('xsi:type') == 'ecore:EAttribute':
                assert f.get('upperBound') is None
                at.append('(%s, %s)' % (nm(n), etype(f.get('eType'))))
            else:
                many = f.get('upperBound')
                assert many in (None, '-1')
                t, o = local(f.get('eType')), f.get('eOpposite')
                assert t in classes
                if o is not None:
                    oc, on = local(o).rsplit('/', 1)
                    g = feat[oc, on]
                    assert oc == t and local(g.get('eOpposite')) == k + '/' + n and local(g.get('eType')) == k, (k, n)
                rf.append('ERef %s %s %s %s' % (nm(n), nm(key(t)), 'true' if many else 'false', '(Some %s)' % nm(on) if o else 'None'))
        rows.append('(* %s:%d-%d *)\n  EClass %s %s %s\n    [%s]\n    [%s]' % (
            path, c.line, c.end, nm(key(k)), nm(c.get('name')), '(Some %s)' % nm(key(local(sup))) if sup else 'None',
            '; '.join(at), '; '.join(rf)))
    res.append((ident, path, len(rows), rows))

w = open(os.path.join(out, 'TabEcore.v'), 'w')
w.write('''(** Generated by tools/gen_ecore.py from Model: do not edit. *)
From Coq Require Import String.
From stdpp Require Import prelude.
From Verif Require Import PyStr PyHeap Schema Names Ecore.

''')
for s, n in sorted(new.items(), key=lambda x: x[1]):
    w.write('(* Model *)\nDefinition %s : name := Eval vm_compute in u "%s".\n' % (n, s))
w.write('\n' + '\n'.join(defs) + '\n')
for ident, path, n, rows in res:
    w.write('\n(** Classes of %s: %d. *)\nDefinition %s : list eclass := [\n%s].\n' % (path, n, ident, ';\n'.join(rows)))
w.write('\n(** The models in the order of [tables]: Model/CIM14/CIM14.ecore, Model/CIM15/CIM15.ecore and\n    those of the profiles. *)\n')
w.write('Definition ecores : list (list eclass) := [\n  %s].\n' % ';\n  '.join(r[0] for r in res))
