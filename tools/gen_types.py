#!/usr/bin/env python3
"""Extract the declared attribute types of the classes (_attr_types, read as text) into Coq.

usage: gen_types.py REPO OUTDIR

Writes TabTypes.v; needs Names.v in OUTDIR.  Fails on any type other than bool,
int, float and str.
"""
import ast, collections, os, re, sys

repo, out = sys.argv[1], sys.argv[2]
known = dict((s, n) for n, s in re.findall(r'Definition (n_\w*) : name := Eval vm_compute in u "([^"]*)"',
                                           open(os.path.join(out, 'Names.v')).read()))
TY = {'bool': 'TyBool', 'int': 'TyInt', 'float': 'TyFloat', 'str': 'TyStr'}
rows = {}
for top in ('CIM14', 'CIM15'):
    for dp, dn, fn in sorted(os.walk(os.path.join(repo, top))):
        for f in sorted(fn):
            if not f.endswith('.py'):
                continue
            p = os.path.join(dp, f)
            mod = os.path.relpath(p, repo)[:-3].replace('/', '.')
            if mod.endswith('.__init__'):
                mod = mod[:-9]
            for n in ast.parse(open(p, encoding='utf-8').read()).body:
                if not isinstance(n, ast.ClassDef):
                    continue
                d = {m.targets[0].id: m for m in n.body if isinstance(m, ast.Assign)}
                if '_attrs' not in d:
                    continue                # datatype classes
                m = d['_attr_types']
                ts = [(k.value, TY[ast.unparse(v)]) for k, v in zip(m.value.keys, m.value.values)]
                rows[mod + '.' + n.name] = '(* %s:%d *) (%s, [%s])' % (
                    os.path.relpath(p, repo), m.lineno, known[mod + '.' + n.name],
                    '; '.join('(%s, %s)' % (known[a], t) for a, t in ts))
groups = collections.OrderedDict()
for k in sorted(rows):
    parts = k.split('.')
    g = parts[0] if parts[1] not in ('CDPSM', 'CPSM', 'ENTSOE') else '.'.join(parts[:3])
    groups.setdefault(g, []).append(rows[k])
o = '''(** Generated by tools/gen_types.py from the classes of CIM14 and CIM15: do not
    edit. *)
From stdpp Require Import prelude.
From Verif Require Import PyStr PyHeap Schema Names AttrTypes.

'''
order = ['CIM14', 'CIM15'] + [g for g in groups if '.' in g]
for g in order:
    o += '(** _attr_types of the classes of %s. *)\nDefinition %s_types : types := [\n  %s\n].\n\n' % (
        g, g.lower().replace('.', '_'), ';\n  '.join(groups[g]))
o += '(** In the order of [tables]. *)\nDefinition all_types : list types := [\n  %s\n].\n' % ';\n  '.join(
    g.lower().replace('.', '_') + '_types' for g in order)
open(os.path.join(out, 'TabTypes.v'), 'w').write(o)
print({g: len(v) for g, v in groups.items()})
