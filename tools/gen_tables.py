#!/usr/bin/env python3
"""Extract the class tables of PyCIM (read as text, never imported) into Coq.

usage: gen_tables.py REPO OUTDIR

Writes Names.v (all names), TabCIM14.v, TabCIM15.v, TabProfiles.v.  Every
property, constructor and add/remove method must have one of the code shapes
listed in Schema.v; anything else aborts the run.
"""
import ast, os, re, sys, collections

repo, out = sys.argv[1], sys.argv[2]
META = ('_attrs', '_defaults', '_enums', '_refs', '_many_refs')
cls, pkgs = {}, {}

for top in ('CIM14', 'CIM15'):
    for dp, dn, fn in sorted(os.walk(os.path.join(repo, top))):
        for f in sorted(fn):
            if not f.endswith('.py'):
                continue
            p = os.path.join(dp, f)
            t = ast.parse(open(p, encoding='utf-8').read())
            mod = os.path.relpath(p, repo)[:-3].replace('/', '.')
            init = mod.endswith('.__init__')
            if init:
                mod = mod[:-9]
            imports = {}
            for n in t.body:
                if isinstance(n, ast.ImportFrom):
                    for a in n.names:
                        imports[a.asname or a.name] = n.module + '.' + a.name
            for n in t.body:
                if isinstance(n, ast.ClassDef):
                    d = dict(name=n.name, mod=mod, base=ast.unparse(n.bases[0]), imports=imports,
                             path=os.path.relpath(p, repo), lines=(n.lineno, n.end_lineno), node=n)
                    assert len(n.bases) == 1
                    for m in n.body:
                        if isinstance(m, ast.Assign) and m.targets[0].id in META:
                            d[m.targets[0].id] = ast.literal_eval(m.value)
                    if '_attrs' not in d:
                        continue            # datatype classes (str/float/int subclasses)
                    d['ms'] = {m.name: m for m in n.body if isinstance(m, ast.FunctionDef)}
                    d['assigns'] = {m.targets[0].id: ast.unparse(m.value)
                                    for m in n.body if isinstance(m, ast.Assign)}
                    cls[mod + '.' + n.name] = d
            if init:
                pkgs[mod] = dict(imports=imports, path=os.path.relpath(p, repo), tree=t)

def body(m):
    b = m.body
    if b and isinstance(b[0], ast.Expr) and isinstance(b[0].value, ast.Constant):
        b = b[1:]
    return ast.unparse(ast.Module(body=b, type_ignores=[]))

def check_get(d, p, want=None):
    g = body(d['ms']['get' + p])
    assert g == (want or 'return self._%s' % p), (d['path'], p, g)
    assert d['assigns'][p] == 'property(get%s, set%s)' % (p, p), (d['path'], p)

def kind(d, p):
    ms = d['ms']
    g = ms.get('set' + p)
    if g is None:
        assert d['assigns'].get(p, 'None') == 'None', (d['path'], p)
        return None
    assert [a.arg for a in g.args.args] == ['self', 'value']
    s = body(g)
    if s == 'self._%s = value' % p:
        check_get(d, p)
        return ('PPrivate',)
    if s == 'self.PerLengthImpedance = value':
        m = re.match(r'if type\(self\.PerLengthImpedance\) is (\w+):\n    return self\.PerLengthImpedance\nelse:\n    return None$',
                     body(ms['get' + p]))
        c = d['imports'].get(m.group(1)) or d['imports_local'][m.group(1)]
        assert d['assigns'][p] == 'property(get%s, set%s)' % (p, p)
        return ('PAlias', 'PerLengthImpedance', c)
    check_get(d, p)
    m = re.match(r'if self\._{P} is not None:\n    filtered = \[x for x in self\.{P}\.(\S+) if x != self\]\n'
                 r'    self\._{P}\._\1 = filtered\nself\._{P} = value\nif self\._{P} is not None:\n'
                 r'    if self not in self\._{P}\._\1:\n        self\._{P}\._\1\.append\(self\)$'.replace('{P}', re.escape(p)), s)
    if m:
        return ('POneMany', m.group(1))
    m = re.match(r'if self\._{P} is not None:\n    self\._{P}\._(\S+) = None\nself\._{P} = value\n'
                 r'if self\._{P} is not None:\n    self\._{P}\.\1 = None\n    self\._{P}\._\1 = self$'.replace('{P}', re.escape(p)), s)
    if m:
        return ('POneOne', m.group(1))
    addm, remm = ms['add' + p], ms['remove' + p]
    for x in (addm, remm):
        assert [a.arg for a in x.args.args] == ['self'] and x.args.vararg.arg == p and not x.args.kwarg
    a, r = body(addm), body(remm)
    m = re.match(r'for x in self\._{P}:\n    x\.(\S+) = None\nfor y in value:\n    y\._\1 = self\nself\._{P} = value$'.replace('{P}', re.escape(p)), s)
    if m:
        q = m.group(1)
        if a == 'for obj in %s:\n    obj.%s = self' % (p, q) and r == 'for obj in %s:\n    obj.%s = None' % (p, q):
            return ('PManyOne', q)
        if a == 'for obj in %s:\n    obj.%s = self\n    self.%s.append(obj)' % (p, q, p) and \
           r == 'for obj in %s:\n    obj.%s = None\n    self.%s.remove(obj)' % (p, q, p):
            return ('PManyOneDbl', q)
    m = re.match(r'for p in self\._{P}:\n    filtered = \[q for q in p\.(\S+) if q != self\]\n    self\._{P}\._\1 = filtered\n'
                 r'for r in value:\n    if self not in r\._\1:\n        r\._\1\.append\(self\)\nself\._{P} = value$'.replace('{P}', re.escape(p)), s)
    if m:
        q = m.group(1)
        assert a == 'for obj in %s:\n    if self not in obj._%s:\n        obj._%s.append(self)\n    self._%s.append(obj)' % (p, q, q, p)
        assert r == 'for obj in %s:\n    if self in obj._%s:\n        obj._%s.remove(self)\n    self._%s.remove(obj)' % (p, q, q, p)
        return ('PManyMany', q)
    raise SystemExit('unknown property shape %s %s\n%s' % (d['path'], p, s))

IMP = '''self._SequenceImpedance = None
self._PhaseImpedance = None
self._PerLengthImpedance = None
if SequenceImpedance is not None:
    if PhaseImpedance is not None or PerLengthImpedance is not None:
        raise ValueError('Too many impedance models specified!')
    else:
        self.SequenceImpedance = SequenceImpedance
elif PhaseImpedance is not None:
    if PerLengthImpedance is not None:
        raise ValueError('Too many impedance models specified!')
    else:
        self.PhaseImpedance = PhaseImpedance
elif PerLengthImpedance is not None:
    self.PerLengthImpedance = PerLengthImpedance'''

def ctor(d):
    i = d['ms']['__init__']
    ps = [a.arg for a in i.args.args][1:]
    assert len(i.args.defaults) == len(ps) and not i.args.kwonlyargs
    params = [(p, ast.literal_eval(v)) for p, v in zip(ps, i.args.defaults)]
    kw = bool(i.args.vararg and i.args.kwarg)
    assert kw or not (i.args.vararg or i.args.kwarg)
    if kw:
        assert i.args.vararg.arg == 'args' and i.args.kwarg.arg == 'kw_args'
    src = body(i)
    if kw:
        tail = 'super(%s, self).__init__(*args, **kw_args)' % d['name']
        assert src.endswith(tail), d['path']
        src = src[:-len(tail)].rstrip('\n')
    steps = []
    lines = src
    while lines:
        lines = lines.lstrip('\n')
        if lines.startswith(IMP):
            steps.append(('SImpedance',)); lines = lines[len(IMP):]; continue
        m = re.match(r'self\._(\w+) = None\nself\.\1 = \1(\n|$)', lines)
        if m:
            steps.append(('SOne', m.group(1))); lines = lines[m.end():]; continue
        m = re.match(r'self\._(\w+) = \[\]\nself\.\1 = \[\] if \1 is None else \1(\n|$)', lines)
        if m:
            steps.append(('SMany', m.group(1))); lines = lines[m.end():]; continue
        m = re.match(r'self\.(\w+) = \[\] if \1 is None else \1(\n|$)', lines)
        if m:
            steps.append(('SPlainMany', m.group(1))); lines = lines[m.end():]; continue
        m = re.match(r'self\._(\w+) = \1(\n|$)', lines)
        if m:
            steps.append(('SPriv', m.group(1))); lines = lines[m.end():]; continue
        m = re.match(r'self\.(\w+) = \1(\n|$)', lines)
        if m:
            steps.append(('SAttr', m.group(1))); lines = lines[m.end():]; continue
        if lines == 'pass':
            break
        raise SystemExit('unknown constructor shape %s\n%s' % (d['path'], lines))
    return params, steps, kw, d['name'] not in ps

names = {}
def nm(s):
    if s not in names:
        b = re.sub(r'\W', '_', s)
        base = 'n_' + b
        k, used = base, set(names.values())
        j = 1
        while k in used:
            k = '%s_%d' % (base, j); j += 1
        names[s] = k
    return names[s]
def lst(xs):
    return '[' + '; '.join(xs) + ']'
def pv(v):
    if v is None: return 'VNone'
    if v is True: return 'VBool true'
    if v is False: return 'VBool false'
    if isinstance(v, int): return 'VInt %d' % v
    if isinstance(v, float): return 'VFloat %s' % nm(repr(v))
    return 'VStr %s' % nm(v)

groups = collections.OrderedDict()
for k in sorted(cls):
    parts = k.split('.')
    g = parts[0] if parts[1] not in ('CDPSM', 'CPSM', 'ENTSOE') else '.'.join(parts[:3])
    groups.setdefault(g, []).append(k)

def local_imports(d):
    """imports inside methods (ACLineSegment)"""
    r = {}
    for n in ast.walk(d['node']):
        if isinstance(n, ast.ImportFrom):
            for a in n.names:
                r[a.asname or a.name] = n.module + '.' + a.name
    return r

def table(g):
    rows = []
    for k in groups[g]:
        d = cls[k]
        d['imports_local'] = local_imports(d)
        base = d['imports'].get(d['base'], d['base'])
        assert base == 'object' or base in cls, (k, base)
        assert base == 'object' or base in groups[g], (k, base)
        params, steps, kw, ok = ctor(d)
        known = set()
        props = []
        for p in d['_refs']:
            kd = kind(d, p)
            if kd:
                props.append((p, kd))
            known |= {x + p for x in ('get', 'set', 'add', 'remove', 'add_', 'remove_')}
        for m in d['ms']:
            assert m == '__init__' or m in known, (k, m)
        for p in d['_refs']:
            plain = any(s[0] == 'SPlainMany' and s[1] == p for s in steps)
            for x, verb in (('add_', 'append'), ('remove_', 'remove')):
                m = d['ms'].get(x + p)
                assert (m is not None) == plain, (k, p)
                if m:
                    assert [a.arg for a in m.args.args] == ['self'] and m.args.vararg.arg == p and not m.args.kwarg, (k, p)
                    assert body(m) == 'for obj in %s:\n    self.%s.%s(obj)' % (p, p, verb), (k, p)
        for a in d['assigns']:
            assert a in META or a == '_attr_types' or a in d['_refs'], (k, a)
        row = '(* %s:%d-%d *)\n  Cls %s %s %s\n    %s\n    %s\n    %s %s\n    %s\n    %s\n    %s\n    %s\n    %s\n    %s' % (
            d['path'], d['lines'][0], d['lines'][1], nm(k), nm(d['name']),
            'None' if base == 'object' else '(Some %s)' % nm(base),
            lst('(%s, %s)' % (nm(p), pv(v)) for p, v in params),
            lst(' '.join([s[0]] + [nm(x) for x in s[1:]]) for s in steps),
            'true' if kw else 'false', 'true' if ok else 'false',
            lst(nm(a) for a in d['_attrs']),
            lst('(%s, %s)' % (nm(a), pv(v)) for a, v in d['_defaults'].items()),
            lst('(%s, %s)' % (nm(a), nm(v)) for a, v in d['_enums'].items()),
            lst(nm(a) for a in d['_refs']), lst(nm(a) for a in d['_many_refs']),
            lst('(%s, %s)' % (nm(p), ' '.join([kd[0]] + [nm(x) for x in kd[1:]])) for p, kd in props))
        rows.append(row)
    return rows

def chain(k):
    r = []
    while k in cls:
        r.append(k)
        k = cls[k]['imports'].get(cls[k]['base'], 'object')
    return r

def pmap(g):
    for n in pkgs[g]['tree'].body:
        if isinstance(n, ast.Assign) and n.targets[0].id == 'packageMap':
            pm = ast.literal_eval(n.value)
            rows = []
            for c, mod in pm.items():
                tgt = pkgs[mod]['imports'][c]
                assert tgt in cls, (c, mod)
                rows.append('(%s, %s)' % (nm(c), nm(tgt)))
            return rows, n.lineno, n.end_lineno, pkgs[g]['path']

def nsuri(g):
    r = {}
    for n in pkgs[g]['tree'].body:
        if isinstance(n, ast.Assign) and n.targets[0].id in ('nsURI', 'nsPrefix'):
            r[n.targets[0].id] = ast.literal_eval(n.value)
    return r

HEAD = '''(** Generated by tools/gen_tables.py from %s: do not edit. *)
From stdpp Require Import prelude.
From Verif Require Import PyStr PyHeap Schema Names.

'''
def emit(fn, gs, src):
    o = HEAD % src
    idents = []
    for g in gs:
        i = g.lower().replace('.', '_')
        idents.append(i)
        o += '(** Class table of %s: %d classes. *)\nDefinition %s : schema := [\n%s\n].\n\n' % (g, len(groups[g]), i, ';\n'.join(table(g)))
        rows, a, b, p = pmap(g)
        o += '(** packageMap, %s:%d-%d: tag to the class that the package exports under that name. *)\nDefinition %s_map : list (name * name) := [\n  %s\n].\n\n' % (
            p, a, b, i, ';\n  '.join(rows))
        ns = nsuri(g)
        if ns:
            o += '(** nsURI and nsPrefix, %s. *)\nDefinition %s_uri : name := %s.\nDefinition %s_prefix : name := %s.\n\n' % (
                p, i, nm(ns['nsURI']), i, nm(ns['nsPrefix']))
    if len(gs) > 1:
        o += '(** All profile tables with their package maps. *)\nDefinition profiles : list (schema * list (name * name)) := [\n  %s\n].\n' % ';\n  '.join(
            '(%s, %s_map)' % (i, i) for i in idents)
    open(os.path.join(out, fn), 'w').write(o)

prof = [g for g in groups if '.' in g]
emit('TabCIM14.v', ['CIM14'], 'CIM14')
emit('TabCIM15.v', ['CIM15'], 'CIM15')
emit('TabProfiles.v', prof, 'the CIM14 and CIM15 profile packages')
o = '''(** Generated by tools/gen_tables.py: the identifiers occurring in the class
    tables of CIM14 and CIM15 as Python strings; do not edit. *)
From Coq Require Import String.
From Verif Require Import PyStr PyHeap.

'''
for s, k in sorted(names.items(), key=lambda x: x[1]):
    assert all(32 <= ord(c) < 127 for c in s)
    o += 'Definition %s : name := Eval vm_compute in u "%s".\n' % (k, s.replace('"', '""'))
open(os.path.join(out, 'Names.v'), 'w').write(o)
print(len(names), 'names', {g: len(v) for g, v in groups.items()})
