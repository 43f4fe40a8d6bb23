#!/usr/bin/env python3
"""Generate rocq/theories/MSrcAlias.v from the text of /repo/multisim.

For every function and method outside of precomp_funs.py: which variables
refer to (parts of) the objects given as arguments, and which statements
change an object in place; functions of the package called on the way are
written out, with tests on parameters given as constants decided.  The source is only parsed, never imported or run.
Usage: extract_alias.py <output directory>
"""
import ast
import os
import sys

import extract as X

# methods changing the object they are called on
MUT = {'append', 'extend', 'insert', 'update', 'pop', 'popitem', 'remove', 'clear', 'setdefault', 'sort', 'reverse',
       'add', 'discard', 'fill', 'put', 'resize', 'itemset'}
# methods and functions giving the object itself, a view or a part of it
VIEW = {'view', 'reshape', 'ravel', 'squeeze', 'get', 'items', 'values', 'keys', 'setdefault', 'pop', 'transpose',
        'to_numpy', 'swapaxes', 'iteritems', 'iterrows', 'itertuples'}
VIEWF = {'asarray', 'ascontiguousarray', 'atleast_1d', 'atleast_2d', 'ravel', 'squeeze', 'reshape', 'transpose', 'Series',
         'DataFrame', 'zip', 'enumerate', 'reversed', 'iter', 'next'}
# functions changing their first argument
MUTF = {'setattr', 'copyto', 'place', 'putmask', 'shuffle', 'fill_diagonal'}

MODS = {p: ast.parse(open(os.path.join(X.R, p)).read()) for p in X.files()}
TOP, CLS = {}, {}
for _p, _t in MODS.items():
    for _n in _t.body:
        if isinstance(_n, ast.FunctionDef):
            TOP.setdefault(_n.name, []).append((_p, _n))
        if isinstance(_n, ast.ClassDef):
            CLS.setdefault(_n.name, (_p, _n))


def mro(name):
    out = []
    while name in CLS:
        out.append(name)
        bs = [b.id if isinstance(b, ast.Name) else getattr(b, 'attr', '') for b in CLS[name][1].bases]
        bs = [b for b in bs if b in CLS]
        name = bs[0] if bs else ''
    return out


def method(cls, name):
    for c in mro(cls):
        for x in CLS[c][1].body:
            if isinstance(x, ast.FunctionDef) and x.name == name:
                return c, x
    return None


def assigned(fn):
    out = set(X.params_of(fn))

    def go(n):
        for c in ast.iter_child_nodes(n):
            if isinstance(c, (ast.FunctionDef, ast.ClassDef, ast.Lambda)):
                continue
            if isinstance(c, ast.Name) and isinstance(c.ctx, (ast.Store, ast.Del)):
                out.add(c.id)
            go(c)
    go(fn)
    return out


class Frame:
    """One activation: names of variables are prefixed."""
    def __init__(s, fn, path, cls, pre, outer=None):
        s.fn, s.path, s.cls, s.pre, s.outer = fn, path, cls, pre, outer
        s.static = any(isinstance(d, ast.Name) and d.id == 'staticmethod' for d in fn.decorator_list)
        ps = X.params_of(fn)
        s.me = ps[0] if cls and ps and not s.static and (outer is None) else None
        s.loc = assigned(fn) - {s.me}
        s.funs = {x.name: x for x in fn.body if isinstance(x, ast.FunctionDef)}
        for b in ast.walk(fn):
            if isinstance(b, (ast.If, ast.With, ast.Try, ast.For)):
                for y in ast.iter_child_nodes(b):
                    if isinstance(y, ast.FunctionDef):
                        s.funs[y.name] = y
        s.const = {}
        s.kw = {a.arg for a in (fn.args.vararg, fn.args.kwarg) if a}

    def var(s, x):
        if x in s.loc:
            return s.pre + x
        if s.outer is not None:
            return s.outer.var(x)
        return None

    def is_kw(s, x):
        return x in s.kw if x in s.loc else (s.outer is not None and s.outer.is_kw(x))


def known(t, F):
    """outcome of a test on a parameter given as a constant, else None"""
    if isinstance(t, ast.UnaryOp) and isinstance(t.op, ast.Not):
        v = known(t.operand, F)
        return None if v is None else not v
    if isinstance(t, ast.Name) and t.id in F.const:
        return bool(F.const[t.id])
    return None


class T:
    count = 0
    stack = []


def tmp():
    T.count += 1
    return '%%%d' % T.count


def ev(n, F):
    """(statements, variables the value may be (part of), may it be new)"""
    if n is None or isinstance(n, ast.Constant) or isinstance(n, ast.Lambda):
        return [], [], True
    if isinstance(n, ast.Name):
        v = F.var(n.id)
        return ([], [v], False) if v else ([], [], True)
    if isinstance(n, ast.Attribute):
        return ev(n.value, F)
    if isinstance(n, ast.Subscript):
        s, r, f = ev(n.value, F)
        s2, _, _ = ev(n.slice, F)
        return s + s2 + [('eval',)], r, f
    if isinstance(n, ast.Starred):
        return ev(n.value, F)
    if isinstance(n, ast.IfExp):
        s0, _, _ = ev(n.test, F)
        s1, r1, f1 = ev(n.body, F)
        s2, r2, f2 = ev(n.orelse, F)
        return s0 + [('if', ('seq', s1), ('seq', s2))], X.uniq(r1 + r2), f1 or f2
    if isinstance(n, ast.BoolOp):
        s, r, f = [], [], False
        for v in n.values:
            s1, r1, f1 = ev(v, F)
            s, r, f = s + s1, r + r1, f or f1
        return s, X.uniq(r), f
    if isinstance(n, (ast.ListComp, ast.SetComp, ast.GeneratorExp, ast.DictComp)):
        s = []
        for g in n.generators:
            s += ev(g.iter, F)[0]
        # variables of comprehensions are not followed; calls in the element are
        for e in ([n.key, n.value] if isinstance(n, ast.DictComp) else [n.elt]):
            s1 = ev(e, F)[0]
            if s1:
                s.append(('if', ('seq', s1), ('seq', [])))
        return s + [('eval',)], [], True
    if isinstance(n, ast.Call):
        return call(n, F)
    s = []
    for c in ast.iter_child_nodes(n):
        if isinstance(c, ast.expr):
            s += ev(c, F)[0]
    return s + [('eval',)], [], True


def bind(x, r, f):
    return [('bind', x, r, f)]


def write(r, f):
    if not r:
        return []
    if len(r) == 1 and not f:
        return [('write', r[0])]
    t = tmp()
    return bind(t, r, f) + [('write', t)]


def resolve(f, F):
    """(path, class, function, outer frame) of a called function of the package"""
    if isinstance(f, ast.Name):
        G = F
        while G is not None:
            if f.id in G.funs:
                return G.path, G.cls, G.funs[f.id], G
            G = G.outer
        if F.var(f.id) is None and len(TOP.get(f.id, [])) == 1:
            p, fn = TOP[f.id][0]
            return p, None, fn, None
    if isinstance(f, ast.Attribute) and isinstance(f.value, ast.Name):
        b = f.value.id
        if F.cls and b in ('self', 'cls'):
            m = method(F.cls, f.attr)
            if m:
                return CLS[m[0]][0], F.cls, m[1], None
        if b in CLS:
            m = method(b, f.attr)
            if m:
                return CLS[m[0]][0], b, m[1], None
        if F.var(b) is None and b != 'self' and len(TOP.get(f.attr, [])) == 1 and b in ('ut', '_pf', 'pf', '_ut', 'multisim'):
            p, fn = TOP[f.attr][0]
            return p, None, fn, None
    return None


def call(n, F):
    s, args = [], []
    for a in n.args:
        s1, r, f = ev(a, F)
        s += s1
        args.append((r, f, isinstance(a, ast.Starred)))
    kws = []
    for k in n.keywords:
        s1, r, f = ev(k.value, F)
        s += s1
        kws.append((k.arg, r, f))
    g = resolve(n.func, F)
    if g is not None and id(g[2]) not in T.stack:
        if any(r for r, _, _ in args) or any(r for _, r, _ in kws) or g[3] is not None:
            return inline(s, g, args, kws, F, n)
        return s + [('eval',)], [], True
    fr, ff = [], True
    if isinstance(n.func, ast.Attribute):
        s1, fr, ff = ev(n.func.value, F)
        s = s1 + s
        name = n.func.attr
    else:
        name = n.func.id if isinstance(n.func, ast.Name) else ''
    out = list(s) + [('eval',)]
    if isinstance(n.func, ast.Attribute) and name in MUT and not (isinstance(n.func.value, ast.Name) and F.is_kw(n.func.value.id)):
        out += write(fr, ff)
    for k, r, f in kws:
        kv = next(x.value for x in n.keywords if x.arg == k)
        if k == 'inplace' and not (isinstance(kv, ast.Constant) and not kv.value):
            out += write(fr, ff)
        if k == 'out':
            out += write(r, f)
    if name in MUTF and args:
        out += write(args[0][0], args[0][1])
    if isinstance(n.func, ast.Attribute) and name in VIEW and fr:
        return out, fr, ff
    if name in VIEWF:
        r = X.uniq([x for a in args for x in a[0]] + [x for k in kws if k[0] == 'data' for x in k[1]])
        if r:
            return out, r, True
    return out, [], True


def inline(s, g, args, kws, F, n):
    path, cls, fn, outer = g
    T.count += 1
    pre = '%s@%d.' % (fn.name, T.count)
    G = Frame(fn, path, cls, pre, outer)
    ps = [a.arg for a in fn.args.posonlyargs + fn.args.args]
    if G.me:
        ps = ps[1:] if not (isinstance(n.func, ast.Attribute) and isinstance(n.func.value, ast.Name)
                            and n.func.value.id in CLS) else ps[1:]
    kwonly = [a.arg for a in fn.args.kwonlyargs]
    got = {}
    rest = list(ps)
    star = [(r, f) for r, f, st in args if st]
    for r, f, st in args:
        if not st and rest:
            got[rest.pop(0)] = (r, f)
    dstar = [(r, f) for k, r, f in kws if k is None]
    for k, r, f in kws:
        if k in ps + kwonly:
            got[k] = (r, f)
    out = list(s)
    for p in ps + kwonly:
        if p in got:
            r, f = got[p]
        else:
            r = X.uniq([x for a in star + dstar for x in a[0]])
            f = True
        out += bind(pre + p, r, f)
    if fn.args.kwarg:
        r = X.uniq([x for k, rr, _ in kws if k not in ps + kwonly for x in rr])
        out += bind(pre + fn.args.kwarg.arg, r, True)
    if fn.args.vararg:
        out += bind(pre + fn.args.vararg.arg, X.uniq([x for a in args for x in a[0]]), True)
    ret = pre + '%ret'
    out += bind(ret, [], True)
    values = dict(zip(ps, n.args))
    values.update({k.arg: k.value for k in n.keywords if k.arg})
    if not star and not dstar:
        dflt = dict(zip(reversed([a.arg for a in fn.args.args]), reversed(fn.args.defaults)))
        dflt.update({a.arg: d for a, d in zip(fn.args.kwonlyargs, fn.args.kw_defaults) if d})
        dflt.update(values)
        stored = {x.id for x in ast.walk(fn) if isinstance(x, ast.Name) and not isinstance(x.ctx, ast.Load)}
        G.const = {k: v.value for k, v in dflt.items() if isinstance(v, ast.Constant) and k not in stored}
    T.stack.append(id(fn))
    body = block(fn.body, G, ret)
    T.stack.pop()
    out.append(('frame', body))
    return out, [ret], False


def assign(t, r, f, F):
    if isinstance(t, ast.Name):
        v = F.var(t.id)
        return bind(v, r, f) if v else []
    if isinstance(t, (ast.Tuple, ast.List)):
        return [x for e in t.elts for x in assign(e, r, f, F)]
    if isinstance(t, ast.Starred):
        return assign(t.value, r, f, F)
    return change(t, F)


def change(t, F):
    """in-place change of the object t is an item or attribute of"""
    s, r, f = ev(t.value, F)
    if isinstance(t, ast.Subscript):
        s += ev(t.slice, F)[0]
        if isinstance(t.value, ast.Name) and F.is_kw(t.value.id):
            return s            # the dictionary of keyword arguments is new
    return s + [('eval',)] + write(r, f)


def block(ss, F, ret):
    out = []
    for s in ss:
        out += stmt(s, F, ret)
    return ('seq', out)


def stmt(s, F, ret):
    if isinstance(s, ast.Expr):
        return ev(s.value, F)[0]
    if isinstance(s, ast.Assign):
        if (len(s.targets) == 1 and isinstance(s.targets[0], ast.Tuple) and isinstance(s.value, ast.Tuple)
                and len(s.targets[0].elts) == len(s.value.elts)):
            out, ts = [], []
            for v in s.value.elts:
                s1, r, f = ev(v, F)
                t = tmp()
                out += s1 + bind(t, r, f)
                ts.append(t)
            for t, e in zip(ts, s.targets[0].elts):
                out += assign(e, [t], False, F)
            return out
        out, r, f = ev(s.value, F)
        for t in s.targets:
            out = out + assign(t, r, f, F)
        return out
    if isinstance(s, ast.AugAssign):
        out = ev(s.value, F)[0]
        if isinstance(s.target, ast.Name):
            return out + assign(s.target, [], True, F)      # numbers and texts
        return out + change(s.target, F)
    if isinstance(s, ast.Return):
        out, r, f = ev(s.value, F)
        return out + (bind(ret, r, f) if ret else []) + [('ret',)]
    if isinstance(s, ast.Raise):
        return ev(s.exc, F)[0] + [('raise',)]
    if isinstance(s, ast.Assert):
        return ev(s.test, F)[0] + [('if', ('seq', []), ('seq', [('raise',)]))]
    if isinstance(s, ast.If):
        v = known(s.test, F)
        if v is not None:
            return block(s.body if v else s.orelse, F, ret)[1]
        return ev(s.test, F)[0] + [('if', block(s.body, F, ret), block(s.orelse, F, ret))]
    if isinstance(s, ast.For):
        out, r, f = ev(s.iter, F)
        b = block(s.body, F, ret)
        return out + [('loop', False, ('seq', assign(s.target, r, f, F) + b[1]), block(s.orelse, F, ret))]
    if isinstance(s, ast.While):
        t = ev(s.test, F)[0]
        return [('loop', X.always(s.test), ('seq', t + block(s.body, F, ret)[1]), ('seq', t + block(s.orelse, F, ret)[1]))]
    if isinstance(s, ast.Try):
        h = ('raise',)
        for x in reversed(s.handlers):
            b = block(x.body, F, ret)
            h = b if h == ('raise',) else ('if', b, h)
        return [('try', block(s.body, F, ret), h, block(s.orelse, F, ret))]
    if isinstance(s, ast.With):
        out = []
        for it in s.items:
            s1, r, f = ev(it.context_expr, F)
            out += s1
            if it.optional_vars is not None:
                out += assign(it.optional_vars, r, f, F)
        return out + block(s.body, F, ret)[1]
    if isinstance(s, ast.Delete):
        out = []
        for t in s.targets:
            if not isinstance(t, ast.Name):
                out += change(t, F)
        return out
    if isinstance(s, ast.Break):
        return [('break',)]
    if isinstance(s, ast.Continue):
        return [('cont',)]
    return []


# ---------------------------------------------------------------- simplification
def walk(c):
    yield c
    for x in c[1:]:
        for y in (x if isinstance(x, list) else [x]):
            if isinstance(y, tuple):
                yield from walk(y)


def holders(ir, params):
    """variables that can refer to an argument in some order of the statements"""
    h = set(params)
    while True:
        n = len(h)
        for c in walk(ir):
            if c[0] == 'bind' and any(y in h for y in c[2]):
                h.add(c[1])
        if len(h) == n:
            return h


def simplify(c, h, tr=False):
    """drop statements on variables that never refer to an argument, and evaluation outside of try"""
    k = c[0]
    if k == 'eval':
        return c if tr else ('seq', [])
    if k == 'bind':
        if c[1] not in h:
            return ('eval',) if tr else ('seq', [])
        r = [y for y in c[2] if y in h]
        return ('bind', c[1], r, c[3] or len(r) < len(c[2]) or not r)
    if k == 'write':
        return c if c[1] in h else (('eval',) if tr else ('seq', []))
    if k == 'seq':
        out = []
        for x in c[1]:
            y = simplify(x, h, tr)
            for z in (y[1] if y[0] == 'seq' else [y]):
                if not (z == ('eval',) and out and out[-1] == ('eval',)):
                    out.append(z)
                if z[0] in ('ret', 'raise', 'break', 'cont'):
                    return ('seq', out)
        return ('seq', out)
    if k == 'if':
        a, b = simplify(c[1], h, tr), simplify(c[2], h, tr)
        return a if a == b else ('if', a, b)
    if k == 'loop':
        b, e = simplify(c[2], h, tr), simplify(c[3], h, tr)
        if not c[1] and b == ('seq', []):
            return e
        return ('loop', c[1], b, e)
    if k == 'try':
        return ('try', simplify(c[1], h, True), simplify(c[2], h, tr), simplify(c[3], h, tr))
    if k == 'frame':
        b = simplify(c[1], h, tr)
        return b if b == ('seq', []) else ('frame', b)
    return c


def coq(c, num):
    k = c[0]
    if k == 'bind':
        return 'Bind %d [%s] %s' % (num[c[1]], ';'.join(str(num[y]) for y in c[2]), 'true' if c[3] else 'false')
    if k == 'write':
        return 'Write %d' % num[c[1]]
    if k == 'seq':
        ps = [coq(x, num) for x in c[1]]
        return 'Skip' if not ps else ps[0] if len(ps) == 1 else 'block [' + '; '.join(ps) + ']'

    def p(x):
        r = coq(x, num)
        return r if ' ' not in r else '(' + r + ')'
    if k == 'if':
        return 'Choice ' + p(c[1]) + ' ' + p(c[2])
    if k == 'loop':
        return 'Loop ' + ('true' if c[1] else 'false') + ' ' + p(c[2]) + ' ' + p(c[3])
    if k == 'try':
        return 'Try ' + p(c[1]) + ' ' + p(c[2]) + ' ' + p(c[3])
    if k == 'frame':
        return 'Frame ' + p(c[1])
    return {'eval': 'Eval', 'break': 'Break', 'cont': 'Continue', 'ret': 'Return', 'raise': 'Raise'}[k]


def functions():
    out = []

    def visit(node, path, cls, pre):
        for c in ast.iter_child_nodes(node):
            if isinstance(c, ast.ClassDef):
                visit(c, path, c.name, pre + [c.name])
            elif isinstance(c, ast.FunctionDef):
                out.append((path, cls, '.'.join(pre + [c.name]), c))
            elif isinstance(c, (ast.If, ast.Try)):
                visit(c, path, cls, pre)
    for p, t in MODS.items():
        if p != 'precomp_funs.py' and not p.startswith('_precompiled'):
            visit(t, p, None, [])
    return out


HEAD = '''(** * Arguments, the variables referring to them, and changes in place (generated by
    tools/extract_alias.py; representation: MAlias.v). *)
From Coq Require Import List String PArith.
From Verif Require Import MAlias.
Import ListNotations.
Local Open Scope string_scope. Local Open Scope positive_scope.

'''


def main(outdir):
    out, ids, seen = [HEAD], [], {}
    size = 0
    for path, cls, name, fn in functions():
        T.count = 0
        T.stack = [id(fn)]
        F = Frame(fn, path, cls, '')
        ir = block(fn.body, F, None)
        ps = [x for x in X.params_of(fn) if x != F.me]
        h = holders(ir, ps)
        ir = simplify(ir, h)
        vs = ps + X.uniq([x for c in walk(ir) if c[0] == 'bind' for x in [c[1]] if x not in ps])
        num = {x: i + 1 for i, x in enumerate(vs)}
        i = X.ident(path, name)
        seen[i] = seen.get(i, 0) + 1
        if seen[i] > 1:
            i += '_%d' % seen[i]
        ids.append(i)
        body = coq(ir, num)
        size += len(body)
        out.append('(* multisim/%s, line %d: %s *)\nDefinition %s : func := {|\n f_file := "%s"; f_name := "%s"; f_line := %d;\n'
                   ' f_params := %s;\n f_body := %s |}.\n' % (path, fn.lineno, name, i, path, name, fn.lineno,
                                                               X.strs(ps), X.wrap(body)))
    out.append('Definition functions : list func := [\n ' + ';\n '.join(ids) + '].\n')
    open(os.path.join(outdir, 'MSrcAlias.v'), 'w').write('\n'.join(out))
    print(len(ids), size)


if __name__ == '__main__':
    main(sys.argv[1])
