#!/usr/bin/env python3
"""Generate rocq/theories/MSrcInit.v from the text of /repo/multisim.

For every class: the reads and writes of attributes of ``self`` while an
object is constructed (``__init__``), in evaluation order, with the methods of
the same object called on the way written out (``frame``), and the statements
steering control flow; the attributes assigned and read anywhere.  Uses the
translation of statements of extract.py.  The source is only parsed, never
imported or run.  Usage: extract_init.py <output directory>
"""
import ast
import copy
import os
import sys

import extract as X

plain_expr, plain_target, plain_stmt = X.expr, X.target, X.stmt
MODS = {p: ast.parse(open(os.path.join(X.R, p)).read()) for p in X.files()}
CLASSES = {}
for path, tree in MODS.items():
    for n in tree.body:
        if isinstance(n, ast.ClassDef):
            # two classes are called Meters: _utility/meters.py, utility_functions.py
            CLASSES[n.name if n.name not in CLASSES else 'Meters_2'] = (path, n)


def mro(name):
    """Classes of the package in order of lookup (single inheritance only)."""
    out = []
    while name in CLASSES:
        out.append(name)
        bases = [b.id if isinstance(b, ast.Name) else b.attr for b in CLASSES[name][1].bases]
        bases = [b for b in bases if b in CLASSES]
        assert len(bases) <= 1
        name = bases[0] if bases else ''
    return out


def mangle(a, cls):
    cls = CLASSES[cls][1].name if cls in CLASSES else cls
    return '_' + cls.lstrip('_') + a if a.startswith('__') and not a.endswith('__') else a


def is_self(n):
    return isinstance(n, ast.Attribute) and isinstance(n.value, ast.Name) and n.value.id == 'self'


class Subst(ast.NodeTransformer):
    """Replace parameters known to be a string constant; fold comparisons of
    and formatting with constants."""
    def __init__(s, env):
        s.env = env

    def visit_Name(s, n):
        if isinstance(n.ctx, ast.Load) and n.id in s.env:
            return ast.copy_location(ast.Constant(s.env[n.id]), n)
        return n

    def visit_Compare(s, n):
        s.generic_visit(n)
        if (isinstance(n.left, ast.Constant) and len(n.ops) == 1 and isinstance(n.ops[0], ast.Eq)
                and isinstance(n.comparators[0], ast.Constant)):
            return ast.copy_location(ast.Constant(n.left.value == n.comparators[0].value), n)
        return n

    def visit_Call(s, n):
        s.generic_visit(n)
        if (isinstance(n.func, ast.Attribute) and n.func.attr == 'format' and not n.keywords
                and isinstance(n.func.value, ast.Constant) and n.args
                and all(isinstance(a, ast.Constant) for a in n.args)):
            return ast.copy_location(ast.Constant(n.func.value.value.format(*[a.value for a in n.args])), n)
        return n

    def visit_If(s, n):
        s.generic_visit(n)
        if isinstance(n.test, ast.Constant):
            body = n.body if n.test.value else n.orelse
            return body if body else ast.copy_location(ast.Pass(), n)
        return n

    def visit_IfExp(s, n):
        s.generic_visit(n)
        if isinstance(n.test, ast.Constant):
            return n.body if n.test.value else n.orelse
        return n


class Ctx:
    mro = []
    index = 0
    stack = []


def find(name, start=0):
    for i in range(start, len(Ctx.mro)):
        for x in CLASSES[Ctx.mro[i]][1].body:
            if isinstance(x, ast.FunctionDef) and mangle(x.name, Ctx.mro[i]) == name:
                return i, x
    return None


def run_method(i, fn, call):
    """Body of method fn (of class number i), called by the expression call."""
    static = any(isinstance(d, ast.Name) and d.id == 'staticmethod' for d in fn.decorator_list)
    if static:
        return [('use', [])]
    assert (i, fn.name) not in Ctx.stack, fn.name
    params = [a.arg for a in fn.args.args][1:]
    env = {}
    if call is not None:
        for p, a in zip(params, call.args):
            if isinstance(a, ast.Constant) and isinstance(a.value, str):
                env[p] = a.value
        for k in call.keywords:
            if isinstance(k.value, ast.Constant) and isinstance(k.value.value, str) and k.arg in params:
                env[k.arg] = k.value.value
    assigned = {x.id for x in ast.walk(fn) if isinstance(x, ast.Name) and not isinstance(x.ctx, ast.Load)}
    env = {k: v for k, v in env.items() if k not in assigned}
    body = Subst(env).visit(copy.deepcopy(fn)).body
    old = Ctx.index
    Ctx.index = i
    Ctx.stack.append((i, fn.name))
    out = [('frame', X.block(body))]
    Ctx.stack.pop()
    Ctx.index = old
    return out


def expr(n, b=frozenset()):
    cls = Ctx.mro[Ctx.index]
    if isinstance(n, ast.Name):
        return [('use', [])]
    if isinstance(n, ast.Call):
        f = n.func
        tgt, out = None, []
        if is_self(f):
            tgt = find(mangle(f.attr, cls))
            if tgt is None:
                out = [('use', [mangle(f.attr, cls)])]
        elif (isinstance(f, ast.Attribute) and isinstance(f.value, ast.Call)
              and isinstance(f.value.func, ast.Name) and f.value.func.id == 'super'):
            tgt = find(f.attr, Ctx.index + 1)
        else:
            out = expr(f, b)
        for a in n.args:
            out = out + expr(a, b)
        for k in n.keywords:
            out = out + expr(k.value, b)
        if (isinstance(f, ast.Name) and f.id == 'setattr' and isinstance(n.args[0], ast.Name)
                and n.args[0].id == 'self'):
            assert isinstance(n.args[1], ast.Constant), ast.unparse(n)
            return out + [('def', [mangle(n.args[1].value, cls)])]
        if tgt is None:
            return out + [('use', [])]
        return out + run_method(tgt[0], tgt[1], n)
    if is_self(n):
        return [('use', [mangle(n.attr, cls)])]
    return plain_expr(n, b)


def target(t):
    if isinstance(t, ast.Name):
        return [('use', [])]
    if is_self(t):
        return [('def', [mangle(t.attr, Ctx.mro[Ctx.index])])]
    return plain_target(t)


def stmt(s):
    if isinstance(s, ast.AugAssign) and is_self(s.target):
        a = mangle(s.target.attr, Ctx.mro[Ctx.index])
        return X.seq([('use', [a])] + expr(s.value) + [('use', []), ('def', [a])])
    if isinstance(s, (ast.AugAssign, ast.Delete, ast.Import, ast.ImportFrom, ast.FunctionDef, ast.ClassDef)):
        if isinstance(s, ast.AugAssign):
            return X.seq(expr(s.target) + expr(s.value) + [('use', [])])
        if isinstance(s, ast.Delete):
            out = []
            for t in s.targets:
                out += [('use', [t.attr]), ('del', [t.attr])] if is_self(t) else expr(t)
            return X.seq(out)
        return X.seq([('use', [])])
    if isinstance(s, ast.Try):
        r = plain_stmt(ast.Try(body=s.body, orelse=s.orelse, finalbody=s.finalbody, handlers=[
            ast.ExceptHandler(type=h.type, name=None, body=h.body) for h in s.handlers]))
        return r
    return plain_stmt(s)


X.expr, X.target, X.stmt = expr, target, stmt
plain_coq = X.coq


def coq(c, num, cnum, in_try=False):
    if c[0] == 'frame':
        r = X.coq(c[1], num, cnum, in_try)
        return 'Skip' if r == 'Skip' else 'Frame (' + r + ')'
    return plain_coq(c, num, cnum, in_try)


X.coq = coq


def class_names(name):
    """Methods and class variables, whatever the state of the object."""
    out = []
    for c in mro(name):
        for x in CLASSES[c][1].body:
            if isinstance(x, ast.FunctionDef):
                out.append(mangle(x.name, c))
            if isinstance(x, ast.Assign):
                out += [t.id for t in x.targets if isinstance(t, ast.Name)]
    return X.uniq(out) + ['__class__', '__dict__', '__init__'][:2]


class Init:
    pass


def constructor(name):
    Ctx.mro = mro(name)
    Ctx.index = 0
    Ctx.stack = []
    t = find('__init__')
    ir = ('seq', run_method(t[0], t[1], None))
    f = Init()
    f.file, f.name, f.line = CLASSES[name][0], name, t[1].lineno
    f.ir = ir
    # '*' first: the outcome of these choices is never fixed
    f.locals = [x for x in X.assigned(ir)]
    given = [x for x in class_names(name) if x not in f.locals]
    f.params = [x for x in given if x in X.used(ir)]
    f.closure = []
    f.outer = [x for x in X.used(ir) if x not in f.locals and x not in f.params]
    f.conds = X.uniq(['*'] + [c[1] for c in X.walk_ir(ir) if c[0] == 'if'])
    f.names = f.params + f.closure + f.locals + f.outer
    return f


HEAD = '''(** * Attributes of objects: construction, reads and assignments (generated by
    tools/extract_init.py; representation: MPy.v, attributes of self instead of names). *)
From Coq Require Import List String PArith.
From Verif Require Import MPy.
Import ListNotations.
Local Open Scope string_scope. Local Open Scope positive_scope.

'''


def main(outdir):
    out = [HEAD]
    ids = []
    for name in CLASSES:
        Ctx.mro = mro(name)
        if find('__init__') is None:
            continue
        f = constructor(name)
        i = 'init_' + name
        ids.append(i)
        out.append(X.emit(f, i))
    out.append('Definition constructors : list func := [\n ' + ';\n '.join(ids) + '].\n')
    # attributes assigned to any object anywhere; attributes of self read in the methods of each class
    stored = set()
    def stores(n, cls):
        if isinstance(n, ast.ClassDef):
            cls = n.name
        if isinstance(n, ast.Attribute) and isinstance(n.ctx, ast.Store):
            stored.add(mangle(n.attr, cls) if cls else n.attr)
        for x in ast.iter_child_nodes(n):
            stores(x, cls)
    for tree in MODS.values():
        stores(tree, None)
    stored |= {'_%s_%s' % (w, x) for w in ('opt', 'ctrl') for x in ('profiles', 'prfl_input_prd')}
    out.append('(* names assigned as attribute of some object somewhere (also by setattr,\n'
               '   parts/controllers.py lines 1501-1563) *)\n'
               'Definition assigned : list string :=\n ' + X.wrap(X.strs(sorted(stored))) + '.\n')
    rows = []
    for name in CLASSES:
        given = set(class_names(name))
        reads = {mangle(n.attr, k) for k in mro(name) for n in ast.walk(CLASSES[k][1])
                 if is_self(n) and isinstance(n.ctx, ast.Load) and mangle(n.attr, k) not in given}
        rows.append('("%s", %s)' % (name, X.wrap(X.strs(sorted(reads)))))
    out.append('(* class, attributes of self read in its methods, own or inherited (without\n'
               '   methods and class variables) *)\n'
               'Definition attribute_reads : list (string * list string) := [\n ' + ';\n '.join(rows) + '].\n')
    open(os.path.join(outdir, 'MSrcInit.v'), 'w').write('\n'.join(out))
    print(len(ids), len(stored), len(rows))


if __name__ == '__main__':
    main(sys.argv[1])
