#!/usr/bin/env python3
"""Generates rocq/theories/TabImports.v: the top-level statements of every module of CIM14 and CIM15.
   usage: gen_imports.py /repo rocq/theories"""
import ast, os, re, sys
repo, out = sys.argv[1], sys.argv[2]
os.chdir(repo)
known = {}
for l in open(os.path.join(out, 'Names.v')):
    m = re.match(r'Definition (\S+) : name := Eval vm_compute in u "(.*)"\.$', l)
    if m: known[m.group(2).replace('""', '"')] = m.group(1)
extra = {}
def nm(s):
    if s in known: return known[s]
    return extra.setdefault(s, 'i_' + re.sub(r'\W', '_', s))
src = {}
for r in ('CIM14', 'CIM15'):
    for d, ds, fs in os.walk(r):
        for f in fs:
            if f.endswith('.py'):
                p = os.path.join(d, f); m = p[:-3].replace('/', '.'); pkg = False
                if m.endswith('.__init__'): m = m[:-9]; pkg = True
                src[m] = (p, pkg, ast.parse(open(p, encoding='utf8').read()))
ident = {m: i + 1 for i, m in enumerate(sorted(src))}
BUILTIN = ('str', 'object', 'float', 'int')
maps = {}
rows = []
for m in sorted(src):
    p, pkg, t = src[m]
    b = []; lines = []
    for n in t.body:
        if isinstance(n, ast.ImportFrom):
            assert n.level == 0 and len(n.names) == 1 and n.names[0].asname is None and n.module in src
            b.append('SFrom %d %s' % (ident[n.module], nm(n.names[0].name))); lines.append(n.lineno)
        elif isinstance(n, ast.ClassDef):
            base, = n.bases; assert not n.keywords and not n.decorator_list
            b.append('SClass %s %s' % (nm(n.name), 'None' if base.id in BUILTIN else '(Some %s)' % nm(base.id))); lines.append(n.lineno)
        elif isinstance(n, ast.Assign):
            tg, = n.targets
            v = ast.literal_eval(n.value)
            b.append('SAssign %s' % nm(tg.id)); lines.append(n.lineno)
            if tg.id == 'packageMap': maps[m] = v, p, n.lineno, n.end_lineno
        else:
            assert isinstance(n, ast.Expr) and isinstance(n.value, ast.Constant), (p, n.lineno)
    up = []; q = m
    while '.' in q: q = q.rsplit('.', 1)[0]; up.append(str(ident[q]))
    rows.append('  (%d, Mod %s [%s] %s [%s])(* %s%s *)' % (ident[m], nm(m.rsplit('.')[-1]), '; '.join(up), 'true' if pkg else 'false', '; '.join(b), p, ':%d-%d' % (lines[0], lines[-1]) if lines else ''))
order = re.findall(r'\(cim\S+, (\S+)_map\)', open(os.path.join(out, 'TabProfiles.v')).read().split('Definition profiles')[1])
order = ['cim14', 'cim15'] + order
byname = {m.lower().replace('.', '_'): m for m in maps}
o = '''(** Generated by tools/gen_imports.py from CIM14 and CIM15: do not edit. *)
From Coq Require Import String PArith.
From stdpp Require Import prelude.
From Verif Require Import PyStr PyHeap Schema Names Imports.

'''
tail = ''
for g in order:
    v, p, a, b = maps[byname[g]]
    tail += '(** packageMap as it is written, %s:%d-%d: tag to package. *)\nDefinition %s_packages : list (name * positive) := [\n  %s\n].\n\n' % (
        p, a, b, g, ';\n  '.join('(%s, %d)' % (nm(k), ident[w]) for k, w in v.items()))
tail += '(** In the order of [Tables.tables]: CIM14/__init__.py, CIM15/__init__.py and the profile packages. *)\nDefinition packages : list (list (name * positive)) := [%s].\n' % '; '.join(g + '_packages' for g in order)
for s in sorted(extra):
    o += '(* CIM14, CIM15 *)\nDefinition %s : name := Eval vm_compute in u "%s".\n' % (extra[s], s)
o += '''
Local Open Scope positive_scope.
(** The %d modules: the last component of the name, the packages it is in
    (nearest first), whether it is a package, and its statements. *)
Definition modules : list (positive * module) := [
%s
].

''' % (len(rows), ';\n'.join(rows))
o += tail
open(os.path.join(out, 'TabImports.v'), 'w').write(o)
print(len(rows), 'modules', len(extra), 'further names')
for m in ('CIM14.IEC61970.Dynamics', 'CIM14.IEC61970.Wires', 'CIM14.IEC61970.Dynamics.RotatingMachine', 'CIM14.IEC61970.Wires.SynchronousMachine', 'CIM14.IEC61970.Wires.RegulatingCondEq',
          'CIM14.ENTSOE.Dynamics.IEC61970.Dynamics', 'CIM14.ENTSOE.Dynamics.IEC61970.Wires', 'CIM14.ENTSOE.Dynamics.IEC61970.Dynamics.DynamicsRotatingMachine', 'CIM14.ENTSOE.Dynamics.IEC61970.Wires.WiresSynchronousMachine'):
    print(ident[m], m)
