#!/usr/bin/env python3
"""Generate rocq/theories/MSrc*.v from the text of /repo/multisim.

Every function, method, class body and module file becomes a [func] of MPy.v:
the reads and writes of plain names, in evaluation order, and the statements
steering control flow.  The source is only parsed (module ``ast``), never
imported or run.  Usage: extract.py <output directory>
"""
import ast
import os
import sys
import textwrap

R = '/repo/multisim'
# identical copy of precomp_funs.py (same bytes)
SKIP = {'_precompiled/precomp_funs.py'}


def files():
    out = []
    for d, _, fs in os.walk(R):
        for f in fs:
            p = os.path.relpath(os.path.join(d, f), R)
            if f.endswith('.py') and p not in SKIP:
                out.append(p)
    return sorted(out)


# ---------------------------------------------------------------- translation
# IR: ('use', [n]), ('def', [n]), ('del', [n]), ('seq', [s]), ('if', condition, a, b),
#     ('loop', forever, body, els), ('break',), ('cont',), ('ret',), ('raise',),
#     ('try', body, handler, els)
def names_of(t):
    return [x.id for x in ast.walk(t) if isinstance(x, ast.Name)]


def seq(l):
    """Flatten, merge neighbouring reads."""
    out = []
    for s in l:
        parts = s[1] if s[0] == 'seq' else [s]
        for p in parts:
            if p[0] == 'use' and out and out[-1][0] == 'use':
                out[-1] = ('use', out[-1][1] + [x for x in p[1] if x not in out[-1][1]])
            else:
                out.append(p)
    return ('seq', out)


def expr(n, b=frozenset()):
    """Statements evaluating expression n; names in b are bound by an
    enclosing comprehension or lambda."""
    if n is None:
        return []
    if isinstance(n, ast.Name):
        return [('use', [n.id])] if n.id not in b else [('use', [])]
    if isinstance(n, ast.Constant):
        return []
    if isinstance(n, ast.BoolOp):
        out = expr(n.values[-1], b)
        for v in reversed(n.values[:-1]):
            out = expr(v, b) + [('if', '*', ('seq', []), seq(out))]
        return out
    if isinstance(n, ast.IfExp):
        return expr(n.test, b) + [('if', ast.unparse(n.test), seq(expr(n.body, b)), seq(expr(n.orelse, b)))]
    if isinstance(n, ast.Lambda):
        out = []
        for d in n.args.defaults + [k for k in n.args.kw_defaults if k]:
            out += expr(d, b)
        b2 = b | {x.arg for x in n.args.args}
        return out + [('if', '*', ('seq', []), seq(expr(n.body, b2)))]
    if isinstance(n, (ast.ListComp, ast.SetComp, ast.GeneratorExp, ast.DictComp)):
        def gens(i, b):
            if i == len(n.generators):
                if isinstance(n, ast.DictComp):
                    return expr(n.key, b) + expr(n.value, b)
                return expr(n.elt, b)
            g = n.generators[i]
            b2 = b | set(names_of(g.target))
            inner = gens(i + 1, b2)
            for c in reversed(g.ifs):
                inner = expr(c, b2) + [('if', '*', ('seq', []), seq(inner))]
            return expr(g.iter, b) + [('if', '*', ('seq', []), seq(inner))]
        return gens(0, b)
    out = []
    for c in ast.iter_child_nodes(n):
        if isinstance(c, ast.expr):
            out += expr(c, b)
        elif isinstance(c, ast.keyword):
            out += expr(c.value, b)
        elif isinstance(c, ast.slice) if hasattr(ast, 'slice') else False:
            out += expr(c, b)
    return out + [('use', [])]      # the operation itself may raise


def target(t):
    if isinstance(t, ast.Name):
        return [('def', [t.id])]
    if isinstance(t, (ast.Tuple, ast.List)):
        out = []
        for e in t.elts:
            out += target(e)
        return out
    if isinstance(t, ast.Starred):
        return target(t.value)
    return expr(t)


def block(ss):
    return seq([stmt(s) for s in ss])


def always(e):
    return isinstance(e, ast.Constant) and bool(e.value)


def stmt(s):
    if isinstance(s, ast.Expr):
        return seq(expr(s.value))
    if isinstance(s, ast.Assign):
        out = expr(s.value)
        for t in s.targets:
            out += target(t)
        return seq(out)
    if isinstance(s, ast.AugAssign):
        if isinstance(s.target, ast.Name):
            return seq([('use', [s.target.id])] + expr(s.value) + [('use', []), ('def', [s.target.id])])
        return seq(expr(s.target) + expr(s.value) + [('use', [])])
    if isinstance(s, ast.Return):
        return seq(expr(s.value) + [('ret',)])
    if isinstance(s, ast.Raise):
        return seq(expr(s.exc) + expr(s.cause) + [('raise',)])
    if isinstance(s, ast.Assert):
        return seq(expr(s.test) + [('if', ast.unparse(s.test), ('seq', []), seq(expr(s.msg) + [('raise',)]))])
    if isinstance(s, ast.If):
        return seq(expr(s.test) + [('if', ast.unparse(s.test), block(s.body), block(s.orelse))])
    if isinstance(s, ast.For):
        return seq(expr(s.iter) + [('loop', False, seq(target(s.target) + [block(s.body)]), block(s.orelse))])
    if isinstance(s, ast.While):
        return ('seq', [('loop', always(s.test), seq(expr(s.test) + [block(s.body)]),
                         seq(expr(s.test) + [block(s.orelse)]))])
    if isinstance(s, ast.Try):
        assert not s.finalbody
        h = ('raise',)
        for x in reversed(s.handlers):
            b = expr(x.type)
            if x.name:
                b = b + [('def', [x.name])]
            b = b + [block(x.body)]
            if x.name:
                b = b + [('del', [x.name])]
            h = seq(b) if h == ('raise',) else ('if', '*', seq(b), h)
        return ('seq', [('try', block(s.body), h, block(s.orelse))])
    if isinstance(s, ast.With):
        out = []
        for it in s.items:
            out += expr(it.context_expr)
            if it.optional_vars is not None:
                out += target(it.optional_vars)
        return seq(out + [block(s.body)])
    if isinstance(s, ast.Delete):
        out = []
        for t in s.targets:
            if isinstance(t, ast.Name):
                out += [('use', [t.id]), ('del', [t.id])]
            else:
                out += expr(t)
        return seq(out)
    if isinstance(s, (ast.Import, ast.ImportFrom)):
        return seq([('use', [])] + [('def', [(a.asname or a.name).split('.')[0]]) for a in s.names])
    if isinstance(s, ast.FunctionDef):
        out = []
        for d in s.decorator_list + s.args.defaults + [k for k in s.args.kw_defaults if k]:
            out += expr(d)
        return seq(out + [('def', [s.name])])
    if isinstance(s, ast.ClassDef):
        out = []
        for d in s.decorator_list + s.bases:
            out += expr(d)
        return seq(out + [('def', [s.name])])
    if isinstance(s, ast.Pass):
        return ('seq', [])
    if isinstance(s, ast.Break):
        return ('seq', [('break',)])
    if isinstance(s, ast.Continue):
        return ('seq', [('cont',)])
    raise Exception(ast.dump(s))


def walk_ir(c):
    yield c
    for x in c[1:]:
        for y in (x if isinstance(x, list) else [x]):
            if isinstance(y, tuple):
                yield from walk_ir(y)


def assigned(ir):
    out = []
    for c in walk_ir(ir):
        if c[0] in ('def', 'del'):
            out += [x for x in c[1] if x not in out]
    return out


def used(ir):
    out = []
    for c in walk_ir(ir):
        if c[0] == 'use':
            out += [x for x in c[1] if x not in out]
    return out


def uniq(l):
    out = []
    for x in l:
        if x not in out:
            out.append(x)
    return out


class Func:
    def __init__(s, file, name, line, body, params, enclosing):
        s.file, s.name, s.line = file, name, line
        s.ir = block(body)
        s.params = params
        s.locals = [x for x in assigned(s.ir) if x not in params]
        free = [x for x in used(s.ir) if x not in params and x not in s.locals]
        s.closure = [x for x in free if x in enclosing]
        s.outer = [x for x in free if x not in enclosing]
        s.conds = uniq(['*'] + [c[1] for c in walk_ir(s.ir) if c[0] == 'if'])
        s.names = s.params + s.closure + s.locals + s.outer


def params_of(fn):
    a = fn.args
    return ([x.arg for x in a.posonlyargs + a.args + a.kwonlyargs]
            + ([a.vararg.arg] if a.vararg else []) + ([a.kwarg.arg] if a.kwarg else []))


def functions(path):
    tree = ast.parse(open(os.path.join(R, path)).read())
    mod = Func(path, '<module>', 1, tree.body, [], [])
    out = []

    def visit(node, pre, enclosing):
        for c in ast.iter_child_nodes(node):
            if isinstance(c, ast.ClassDef):
                out.append(Func(path, '.'.join(pre + [c.name, '<class>']), c.lineno, c.body, [], enclosing))
                visit(c, pre + [c.name], enclosing)
            elif isinstance(c, ast.FunctionDef):
                f = Func(path, '.'.join(pre + [c.name]), c.lineno, c.body, params_of(c), enclosing)
                out.append(f)
                visit(c, pre + [c.name], enclosing + f.params + f.locals)
            else:
                visit(c, pre, enclosing)
    visit(tree, [], [])
    return mod, out


# ---------------------------------------------------------------- output
def coq(c, num, cnum, in_try=False):
    k = c[0]

    def lst(xs):
        return '[' + ';'.join(str(num[x]) for x in xs) + ']'
    if k == 'use':
        return 'Use ' + lst(c[1])
    if k == 'def':
        return 'Def ' + lst(c[1])
    if k == 'del':
        return 'Del ' + lst(c[1])
    if k == 'seq':
        parts = [x for x in c[1] if in_try or x != ('use', [])]
        parts = [coq(x, num, cnum, in_try) for x in parts]
        parts = [p for p in parts if p != 'Skip' and not (p.startswith('Choice') and p.endswith(' Skip Skip'))]
        if not parts:
            return 'Skip'
        if len(parts) == 1:
            return parts[0]
        return 'block [' + '; '.join(parts) + ']'

    def p(x, t=in_try):
        r = coq(x, num, cnum, t)
        return r if r == 'Skip' else '(' + r + ')'
    if k == 'if':
        return 'Choice %d ' % cnum[c[1]] + p(c[2]) + ' ' + p(c[3])
    if k == 'loop':
        return 'Loop ' + ('true' if c[1] else 'false') + ' ' + p(c[2]) + ' ' + p(c[3])
    if k == 'try':
        return 'Try ' + p(c[1], True) + ' ' + p(c[2]) + ' ' + p(c[3])
    return {'break': 'Break', 'cont': 'Continue', 'ret': 'Return', 'raise': 'Raise'}[k]


def wrap(text, width=100):
    return '\n '.join(textwrap.wrap(text, width, break_long_words=False, break_on_hyphens=False))


def ident(path, name):
    return 'f_' + ''.join(ch if ch.isalnum() else '_' for ch in path[:-3] + '__' + name)


def text(x):
    x = ''.join(ch if 32 <= ord(ch) < 127 else '?' for ch in ' '.join(x.split()))
    x = x if len(x) <= 90 else x[:87] + '...'
    return x.replace('"', '""')


def strs(l):
    return '[' + '; '.join('"%s"' % text(x) for x in l) + ']'


def emit(f, ident_):
    num = {x: i + 1 for i, x in reversed(list(enumerate(f.names)))}
    cnum = {x: i + 1 for i, x in enumerate(f.conds)}
    return ('(* multisim/%s, line %d: %s *)\nDefinition %s : func := {|\n f_file := "%s"; f_name := "%s"; f_line := %d;\n'
            ' f_params := %s; f_closure := %s;\n f_locals := %s;\n f_outer := %s;\n f_conds := %s;\n f_body := %s |}.\n' % (
                f.file, f.line, f.name, ident_, f.file, f.name, f.line, strs(f.params), strs(f.closure),
                strs(f.locals), strs(f.outer), strs(f.conds), wrap(coq(f.ir, num, cnum))))


HEAD = '''(** * %s (generated by tools/extract.py; representation: MPy.v). *)
From Coq Require Import List String PArith.
From Verif Require Import MPy.
Import ListNotations.
Local Open Scope string_scope. Local Open Scope positive_scope.

'''


def main(outdir):
    groups = {'MSrcSim': ['simenv.py', 'flownet.py', 'controls.py'],
              'MSrcPre': ['precomp_funs.py', '_precompiled/dimensionless_numbers.py',
                          '_precompiled/material_properties.py'],
              'MSrcUt': ['utility_functions.py', '_utility/meters.py', '_utility/plotting.py',
                         '_utility/stat_error_measures.py']}
    allf = files()
    rest = [f for f in allf if not any(f in g for g in groups.values())]
    groups['MSrcParts'] = rest
    stats = []
    for g, fs in groups.items():
        out = [HEAD % ('Names and control flow of ' + ', '.join(fs))]
        tab = []
        for path in fs:
            mod, fns = functions(path)
            mi = ident(path, 'module')
            out.append(emit(mod, mi))
            ids = []
            seen = {}
            for f in fns:
                i = ident(path, f.name)
                seen[i] = seen.get(i, 0) + 1
                if seen[i] > 1:
                    i += '_%d' % seen[i]
                ids.append(i)
                out.append(emit(f, i))
            tab.append('(%s, [%s])' % (mi, '; '.join(ids)))
            stats.append((path, len(fns)))
        out.append('Definition table_%s : list (func * list func) := [\n ' % g[4:] + ';\n '.join(tab) + '].\n')
        open(os.path.join(outdir, g + '.v'), 'w').write('\n'.join(out))
    print(stats, sum(n for _, n in stats))


if __name__ == '__main__':
    main(sys.argv[1])
