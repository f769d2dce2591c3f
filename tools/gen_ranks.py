"""Ranks of the packages of TabImports.v: a package has a higher rank than those it
needs, packages that need one another have the same.  Only a certificate:
ImportTabs.v checks it.  Usage: gen_ranks.py THEORIES"""
import os, re, sys
th = sys.argv[1]
sys.setrecursionlimit(10000)
mods = {}
for i, up, pkg, b in re.findall(r'^  \((\d+), Mod \S+ \[([^\]]*)\] (true|false) \[(.*)\]\)\(\*', open(os.path.join(th, 'TabImports.v')).read(), re.M):
    mods[int(i)] = ([int(x) for x in up.split('; ') if x], pkg == 'true', [int(x) for x in re.findall(r'SFrom (\d+)', b)])
home = {m: m if p else up[0] for m, (up, p, ts) in mods.items()}
edges = {}
for m, (up, p, ts) in mods.items():
    edges.setdefault(home[m], set()).update(home[x] for x in up + ts if home[x] != home[m])
index, low, stack, on, rank = {}, {}, [], set(), {}
def visit(v):
    index[v] = low[v] = len(index); stack.append(v); on.add(v)
    for w in edges.get(v, ()):
        if w not in index: visit(w); low[v] = min(low[v], low[w])
        elif w in on: low[v] = min(low[v], index[w])
    if low[v] == index[v]:
        comp = []
        while True:
            w = stack.pop(); on.discard(w); comp.append(w)
            if w == v: break
        r = 1 + max([rank[x] for c in comp for x in edges.get(c, ()) if x not in comp], default=0)
        for c in comp: rank[c] = r
        if len(comp) > 1: print(len(comp), 'packages need one another:', sorted(comp))
for v in sorted(home.values()):
    if v not in index: visit(v)
open(os.path.join(th, 'ImportRanks.v'), 'w').write('''(** Generated by tools/gen_ranks.py from TabImports.v: do not edit.  Packages with
    their rank; checked in ImportTabs.v. *)
From Coq Require Import PArith.
From stdpp Require Import prelude.
Local Open Scope positive_scope.
Definition ranks : list (positive * positive) := [
%s
].
''' % ';\n'.join('  ' + '; '.join('(%d, %d)' % (p, rank[p]) for p in sorted(rank)[i:i + 12]) for i in range(0, len(rank), 12)))
print(len(rank), 'packages, ranks up to', max(rank.values()))
