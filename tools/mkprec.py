"""Generate rocq/theories/M_prec_table.v: the precision skeleton of every function in /repo/mpsci
(tests excluded), by parsing the source text."""
import ast, os, builtins

ROOT = '/repo/mpsci'
mods = {}
for d, _, fs in sorted(os.walk(ROOT)):
    if '/tests' in d:
        continue
    for f in sorted(fs):
        if f.endswith('.py'):
            p = os.path.join(d, f)
            name = 'mpsci' + p[len(ROOT):-3].replace('/', '.')
            if name.endswith('.__init__'):
                name = name[:-9]
            mods[name] = (p, ast.parse(open(p).read()))

# names defined at module level, following imports inside the package
names = {m: {} for m in mods}
for m, (p, t) in mods.items():
    for s in t.body:
        if isinstance(s, ast.FunctionDef):
            names[m][s.name] = ('fun', m + '.' + s.name)
        elif isinstance(s, ast.ClassDef):
            names[m][s.name] = ('class', m + '.' + s.name)


def target(m, node):
    base = m.split('.') if mods[m][0].endswith('__init__.py') else m.split('.')[:-1]
    if node.level:
        base = base[:len(base) - (node.level - 1)]
        return '.'.join(base + ([node.module] if node.module else []))
    return node.module


for _ in range(6):
    for m, (p, t) in mods.items():
        for s in ast.walk(t):
            if isinstance(s, ast.ImportFrom):
                tg = target(m, s)
                for a in s.names:
                    if a.name == '*':
                        if tg in names:
                            for k, v in names[tg].items():
                                names[m].setdefault(k, v)
                        continue
                    n = a.asname or a.name
                    if tg in names and a.name in names[tg]:
                        names[m][n] = names[tg][a.name]
                    elif tg and tg + '.' + a.name in mods:
                        names[m][n] = ('mod', tg + '.' + a.name)
                    elif tg and not tg.startswith('mpsci'):
                        names[m].setdefault(n, ('ext', n))
            elif isinstance(s, ast.Import):
                for a in s.names:
                    names[m].setdefault((a.asname or a.name).split('.')[0], ('ext', a.name))
# attributes of package modules reached by name (module.function)
for m, (p, t) in mods.items():
    for s in t.body:
        if isinstance(s, ast.Assign):
            for g in s.targets:
                if isinstance(g, ast.Name):
                    names[m].setdefault(g.id, ('const', g.id))

HIGHER = {'findroot', 'quad', 'quadosc', 'nsum', 'nprod', 'diff', 'limit', 'taylor', 'sumem', 'odefun'}
table = []          # (qualified name, file, first line, last line, term)
BUILTIN = set(dir(builtins))


class Fun:
    def __init__(self, m, qual, parent):
        self.m, self.qual, self.parent, self.local = m, qual, parent, {}

    def lookup(self, n):
        f = self
        while f:
            if n in f.local:
                return f.local[n]
            f = f.parent
        return names[self.m].get(n) or (('ext', n) if n in BUILTIN else None)


def callees(fun, node):
    """Package functions that evaluating [node] may call; '?' = cannot be determined."""
    out = []

    def add(x):
        if x not in out:
            out.append(x)

    def visit(n):
        if isinstance(n, ast.Lambda):
            q = f'{fun.qual}.<lambda>@{n.lineno}'
            g = Fun(fun.m, q, fun)
            for a in n.args.args + n.args.kwonlyargs:
                g.local[a.arg] = ('var', a.arg)
            emit(q, fun.m, n.lineno, n.end_lineno, ev(g, n.body))
            add(q)
            return
        if isinstance(n, (ast.ListComp, ast.GeneratorExp, ast.SetComp, ast.DictComp)):
            for c in n.generators:
                for x in ast.walk(c.target):
                    if isinstance(x, ast.Name):
                        fun.local.setdefault(x.id, ('var', x.id))
        if isinstance(n, ast.Call):
            f = n.func
            if isinstance(f, ast.Name):
                r = fun.lookup(f.id)
                if r is None or r[0] in ('var', 'const', 'mod'):
                    add('?')
                elif r[0] == 'class':
                    pass
            elif isinstance(f, ast.Attribute):
                b = f.value
                if isinstance(b, ast.Name):
                    r = fun.lookup(b.id)
                    if r and r[0] == 'mod':
                        q = names[r[1]].get(f.attr)
                        if q and q[0] == 'fun':
                            add(q[1])
                        elif not (q and q[0] == 'class'):
                            add('?')
                    elif r and r[0] == 'ext':
                        if f.attr in HIGHER:
                            for x in ast.walk(n):
                                if isinstance(x, ast.Name) and x is not b:
                                    rr = fun.lookup(x.id)
                                    if rr is None or rr[0] in ('var', 'const'):
                                        add('?')
                    elif b.id == 'self':
                        add(f'{fun.qual.rsplit(".", 1)[0]}.{f.attr}')
                    elif f.attr in ('append', 'pop', 'extend', 'index', 'count', 'sort', 'items', 'keys', 'values', 'get', 'copy', 'insert'):
                        pass
                    else:
                        add('?')
                elif isinstance(b, ast.Attribute) and isinstance(b.value, ast.Name) and fun.lookup(b.value.id) and fun.lookup(b.value.id)[0] == 'mod':
                    q = names[fun.lookup(b.value.id)[1]].get(b.attr)
                    q = names[q[1]].get(f.attr) if q and q[0] == 'mod' else None
                    add(q[1] if q and q[0] == 'fun' else '?')
                elif isinstance(b, (ast.Constant, ast.JoinedStr)):
                    pass
                else:
                    add('?')
            else:
                add('?')
        if isinstance(n, ast.Name) and isinstance(n.ctx, ast.Load):
            r = fun.lookup(n.id)
            if r and r[0] == 'fun':
                add(r[1])
        if isinstance(n, ast.Attribute) and isinstance(n.value, ast.Name):
            r = fun.lookup(n.value.id)
            if r and r[0] == 'mod':
                q = names[r[1]].get(n.attr)
                if q and q[0] == 'fun':
                    add(q[1])
        for c in ast.iter_child_nodes(n):
            visit(c)
    visit(node)
    return out


def lst(xs):
    return '[' + '; '.join('"%s"' % x for x in xs) + ']'


def has_yield(node):
    return any(isinstance(x, (ast.Yield, ast.YieldFrom)) for x in ast.walk(node))


def ev(fun, node):
    if node is None:
        return 'Skip'
    e = 'Eval ' + lst(callees(fun, node))
    return f'Seq ({e}) Yield' if has_yield(node) else e


def pexp(n):
    if isinstance(n, ast.Constant) and isinstance(n.value, int):
        return f'(Num {n.value})'
    if isinstance(n, ast.Attribute) and isinstance(n.value, ast.Name) and n.value.id == 'mp':
        return {'dps': 'Dps', 'prec': 'Prec'}[n.attr]
    if isinstance(n, ast.BinOp):
        return '(%s %s %s)' % ({ast.Add: 'Add', ast.Mult: 'Mul', ast.FloorDiv: 'Div'}[type(n.op)], pexp(n.left), pexp(n.right))
    if isinstance(n, ast.Call) and isinstance(n.func, ast.Name) and n.func.id in ('min', 'max') and len(n.args) == 2:
        return '(%s %s %s)' % (n.func.id.capitalize(), pexp(n.args[0]), pexp(n.args[1]))
    raise Exception(ast.dump(n))


def manager(n):
    if isinstance(n, ast.Call) and isinstance(n.func, ast.Attribute) and isinstance(n.func.value, ast.Name) and n.func.value.id == 'mp':
        k = {'extradps': 'ExtraDps', 'extraprec': 'ExtraPrec', 'workprec': 'WorkPrec', 'workdps': 'WorkDps'}.get(n.func.attr)
        if k:
            return f'({k} {pexp(n.args[0])})'
    return None


def seq(ts):
    ts = [t for t in ts if t != 'Skip']
    if not ts:
        return 'Skip'
    r = ts[-1]
    for t in reversed(ts[:-1]):
        r = f'Seq ({t}) ({r})'
    return r


def bindnames(fun, target):
    for x in ast.walk(target):
        if isinstance(x, ast.Name) and isinstance(x.ctx, ast.Store):
            if fun.local.get(x.id, ('var',))[0] != 'fun':
                fun.local[x.id] = ('var', x.id)


def prec_target(t):
    return isinstance(t, ast.Attribute) and isinstance(t.value, ast.Name) and t.value.id == 'mp' and t.attr in ('prec', 'dps')


def stmts(fun, body):
    # nested functions are visible in the whole body
    for s in body:
        if isinstance(s, ast.FunctionDef):
            fun.local[s.name] = ('fun', f'{fun.qual}.<locals>.{s.name}')
    return seq([stmt(fun, s) for s in body])


def stmt(fun, s):
    if isinstance(s, ast.Expr):
        if isinstance(s.value, ast.Constant):
            return 'Skip'
        return ev(fun, s.value)
    if isinstance(s, (ast.Assign, ast.AugAssign, ast.AnnAssign)):
        targets = s.targets if isinstance(s, ast.Assign) else [s.target]
        e = 'Skip' if s.value is None else ev(fun, s.value)
        r = [e]
        for t in targets:
            if prec_target(t):
                r.append(('SetPrec ' if t.attr == 'prec' else 'SetDps ') + pexp(s.value))
            bindnames(fun, t)
            # a name bound to a function or lambda may be called later
            if isinstance(t, ast.Name) and isinstance(s.value, ast.Lambda):
                fun.local[t.id] = ('fun', f'{fun.qual}.<lambda>@{s.value.lineno}')
        return seq(r)
    if isinstance(s, ast.Return):
        return seq([ev(fun, s.value), 'Return']) if s.value is not None else 'Return'
    if isinstance(s, ast.Raise):
        return seq([ev(fun, s.exc), 'Raise'])
    if isinstance(s, ast.If):
        return seq([ev(fun, s.test), f'If ({stmts(fun, s.body)}) ({stmts(fun, s.orelse)})'])
    if isinstance(s, ast.For):
        bindnames(fun, s.target)
        return seq([ev(fun, s.iter), f'Loop ({stmts(fun, s.body)})', stmts(fun, s.orelse)])
    if isinstance(s, ast.While):
        t = ev(fun, s.test)
        return seq([t, f'Loop ({seq([stmts(fun, s.body), t])})', stmts(fun, s.orelse)])
    if isinstance(s, ast.With):
        b = None
        r = stmts(fun, s.body)
        for i in reversed(s.items):
            m = manager(i.context_expr)
            assert m, ast.dump(i.context_expr)
            r = f'With {m} ({r})'
        return r
    if isinstance(s, ast.Try):
        h = 'Skip'
        hs = [stmts(fun, x.body) for x in s.handlers]
        for x in reversed(hs):
            h = x if h == 'Skip' else f'If ({x}) ({h})'
        return f'Try ({seq([stmts(fun, s.body), stmts(fun, s.orelse)])}) ({h}) ({stmts(fun, s.finalbody)})'
    if isinstance(s, (ast.Pass, ast.Import, ast.ImportFrom, ast.Delete)):
        return 'Skip'
    if isinstance(s, ast.Break):
        return 'Break'
    if isinstance(s, ast.Continue):
        return 'Continue'
    if isinstance(s, ast.Assert):
        return ev(fun, s.test)
    if isinstance(s, ast.FunctionDef):
        function(fun.m, f'{fun.qual}.<locals>.{s.name}', s, fun)
        return 'Skip'
    raise Exception(ast.dump(s))


def emit(q, m, a, b, t):
    table.append((q, mods[m][0], a, b, t))


def function(m, q, node, parent):
    f = Fun(m, q, parent)
    a = node.args
    for x in a.args + a.kwonlyargs + a.posonlyargs + ([a.vararg] if a.vararg else []) + ([a.kwarg] if a.kwarg else []):
        f.local[x.arg] = ('var', x.arg)
    t = stmts(f, node.body)
    for d in reversed(node.decorator_list):
        g = manager(d)
        if g:
            t = f'With {g} ({t})'
        else:
            n = d.func if isinstance(d, ast.Call) else d
            assert isinstance(n, ast.Name) and n.id == 'lru_cache', ast.dump(d)
    first = min([node.lineno] + [d.lineno for d in node.decorator_list])
    emit(q, m, first, node.end_lineno, t)


def module(m):
    p, t = mods[m]
    f = Fun(m, m + '.<module>', None)
    r = []
    for s in t.body:
        if isinstance(s, ast.FunctionDef):
            function(m, m + '.' + s.name, s, None)
        elif isinstance(s, ast.ClassDef):
            for x in s.body:
                if isinstance(x, ast.FunctionDef):
                    function(m, f'{m}.{s.name}.{x.name}', x, None)
        else:
            r.append(stmt(f, s))
    emit(m + '.<module>', m, 1, len(open(p).read().split('\n')), seq(r))


for m in sorted(mods):
    module(m)
seen = {}
rows = []
for q, p, a, b, t in table:
    k = seen.get(q, 0)
    seen[q] = k + 1
    rows.append((q, p, a, b, t))
defined = {r[0] for r in rows}
import re
missing = set()
for r in rows:
    for x in re.findall(r'"([^"]*)"', r[4]):
        if x != '?' and x not in defined:
            missing.add(x)
assert not missing, missing
out = ['(** Generated by tools/mkprec.py from the text of /repo/mpsci (tests excluded): the precision',
       '    skeleton of every function, method, nested function, lambda and module body.  See M_prec.v',
       '    for the language.  Decorators and with-statements that change the precision appear as [With].  Each',
       '    row carries the lines of the source it models. *)',
       'From Coq Require Import List String ZArith.', 'From Verif Require Import M_prec.', 'Import ListNotations.', 'Local Open Scope string_scope.', 'Local Open Scope Z_scope.', '']
chunks = [rows[i:i + 60] for i in range(0, len(rows), 60)]
for i, c in enumerate(chunks):
    out.append(f'Definition table{i} : program := [')
    for j, (q, p, a, b, t) in enumerate(c):
        out.append(f'  (** {p[len("/repo/"):]}:{a}-{b} *)')
        out.append(f'  ("{q}", {t})' + (';' if j + 1 < len(c) else ''))
    out.append('].')
out.append('Definition package : program := (' + ' ++ '.join(f'table{i}' for i in range(len(chunks))) + ')%list.')
open('/verif/rocq/theories/M_prec_table.v', 'w').write('\n'.join(out) + '\n')
print(len(rows), sum('"?"' in r[4] for r in rows), sum(seen[k] > 1 for k in seen))
