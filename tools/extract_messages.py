#!/usr/bin/env python3
"""Generate rocq/theories/MSrcMessages.v: all calls of str.format in /repo/multisim.

For every call: file, line, the possible templates and the number (and names)
of the arguments, and whether the text is only made when an error is reported
(the call is part of an assert or raise statement).  A template is a list of pieces: literal text, or text that
is only known when the program runs (names given by the user), or a number
written out; calls of format inside templates are written out.  Variables are resolved to the
assignments that can reach them in the same function, attributes of self to all
assignments in the class, its bases and its subclasses.  The source is only
parsed, never imported or run.  Usage: extract_messages.py <output directory>
"""
import ast
import glob
import os
import string
import sys

ROOT = '/repo/multisim/'
FILES = [f for f in sorted(glob.glob(ROOT + '**/*.py', recursive=True)) if '_precompiled' not in f]
TREES = {f: ast.parse(open(f).read()) for f in FILES}
CLASSES = {}
for _f, _t in TREES.items():
    for _n in ast.walk(_t):
        for _c in ast.iter_child_nodes(_n):
            _c._p = _n
        if isinstance(_n, ast.ClassDef):
            CLASSES.setdefault(_n.name, []).append(_n)
HOLE = ('hole',)
NUM = ('num',)     # a number written out


def encl(n, k):
    while hasattr(n, '_p'):
        n = n._p
        if isinstance(n, k):
            return n
    return None


def bases(name, seen=None):
    seen = set() if seen is None else seen
    if name not in seen:
        seen.add(name)
        for c in CLASSES.get(name, []):
            for b in c.bases:
                bases(ast.unparse(b).split('.')[-1], seen)
    return seen


def related(name):
    out = set()
    for n in CLASSES:
        if name in bases(n):
            out |= bases(n)
    return sorted(out)


def literal(v):
    return ''.join(p[1] for p in v) if all(p[0] == 'lit' for p in v) else None


def norm(v):
    out = []
    for p in v:
        if p[0] == 'lit':
            if not p[1]:
                continue
            if out and out[-1][0] == 'lit':
                out[-1] = ('lit', out[-1][1] + p[1])
                continue
        out.append(p)
    return tuple(out)


def texts_of_key(mod, key, seen):
    out = set()
    for n in ast.walk(mod):
        if isinstance(n, ast.Assign) and any(isinstance(t, ast.Subscript) and ast.unparse(t.slice) == repr(key) for t in n.targets):
            out |= val(n.value, seen)
    return out


def fill(t, args):
    """Pieces of the result of a call of format; braces of the template may only occur in literal pieces."""
    out = {()}
    auto = 0
    for p in t:
        if p[0] != 'lit':
            out = {o + (p,) for o in out}
            continue
        for lit, name, spec, conv in string.Formatter().parse(p[1]):
            out = {o + (('lit', lit),) for o in out}
            if name is not None:
                if name == '':
                    name = auto
                    auto += 1
                a = args[int(name)]
                out = {o + (NUM,) for o in out} if spec else {o + x for o in out for x in a}
    return {norm(o) for o in out}


def val(e, seen=()):
    """Possible values of an expression that is a text: set of tuples of pieces."""
    if isinstance(e, ast.Constant) and isinstance(e.value, str):
        return {norm((('lit', e.value),))}
    if isinstance(e, ast.BinOp) and isinstance(e.op, ast.Add):
        return {norm(a + b) for a in val(e.left, seen) for b in val(e.right, seen)}
    if isinstance(e, ast.IfExp):
        return val(e.body, seen) | val(e.orelse, seen)
    if isinstance(e, ast.Call) and isinstance(e.func, ast.Attribute) and e.func.attr == 'format':
        out = set()
        for t in val(e.func.value, seen):
            if e.keywords:
                out.add((HOLE,))
            else:
                out |= fill(t, [sorted(val(a, seen)) for a in e.args])
        return out
    if isinstance(e, ast.Subscript) and ast.unparse(e.slice) == "'txt_constr'":
        return texts_of_key(encl(e, (ast.Module,)), 'txt_constr', seen)
    if isinstance(e, ast.Subscript) and ast.unparse(e) == 'txts_constr[i]':
        out = texts_of_key(encl(e, (ast.Module,)), 'txt_constr', seen)
        for n in ast.walk(encl(e, (ast.Module,))):
            if isinstance(n, ast.Assign) and any(isinstance(t, ast.Name) and t.id == 'txt_constr' for t in n.targets):
                out |= val(n.value, seen)
        return out
    if isinstance(e, ast.Name):
        fn = encl(e, (ast.FunctionDef,))
        defs = [n for n in ast.walk(fn) if isinstance(n, ast.Assign) and any(isinstance(t, ast.Name) and t.id == e.id for t in n.targets)] if fn else []
        params = [a.arg for a in fn.args.args + fn.args.kwonlyargs] if fn else []
        before = [d for d in defs if d.lineno < e.lineno and d is not encl(e, (ast.Assign,))]
        anc = set()
        x = e
        while hasattr(x, '_p'):
            anc.add(id(x))
            x = x._p
        dom = [d for d in before if id(d._p) in anc]
        if dom:
            last = max(dom, key=lambda d: d.lineno)
            use = [last] + [d for d in before if d.lineno > last.lineno]
            more = set()
        else:
            use = before
            more = {(HOLE,)} if not before or e.id in params else set()
        out = set(more)
        for d in use:
            if id(d) in seen:
                out.add((HOLE,))
            else:
                out |= val(d.value, seen + (id(d),))
        return out
    if isinstance(e, ast.Attribute) and isinstance(e.value, ast.Name) and e.value.id == 'self':
        c = encl(e, (ast.ClassDef,))
        out = set()
        for nm in related(c.name) if c else []:
            for k in CLASSES.get(nm, []):
                for n in ast.walk(k):
                    if isinstance(n, ast.Assign) and any(ast.unparse(t) == ast.unparse(e) for t in n.targets) and id(n) not in seen:
                        out |= val(n.value, seen + (id(n),))
        return out or {(HOLE,)}
    return {(HOLE,)}


def q(s):
    out = []
    for ch in s:
        if ch == '"':
            out.append('""')
        elif ch == '\n':
            out.append('\n')
        else:
            out.append(ch)
    return '"%s"' % ''.join(out)


def main():
    rows = []
    for f, t in TREES.items():
        for n in ast.walk(t):
            if isinstance(n, ast.Call) and isinstance(n.func, ast.Attribute) and n.func.attr == 'format':
                assert not any(isinstance(a, ast.Starred) for a in n.args) and not any(k.arg is None for k in n.keywords), (f, n.lineno)
                st = encl(n, (ast.stmt,))
                rows.append((f[len(ROOT):], n.lineno, len(n.args), [k.arg for k in n.keywords], sorted(val(n.func.value)),
                             isinstance(st, (ast.Assert, ast.Raise))))
    rows.sort()
    texts = {}
    out = []
    for r in rows:
        for v in r[4]:
            for p in v:
                if p[0] == 'lit':
                    texts.setdefault(p[1], 't%d' % (len(texts) + 1))
    with open(os.path.join(sys.argv[1], 'MSrcMessages.v'), 'w') as fh:
        fh.write('(** * Calls of str.format. Generated by /verif/tools/extract_messages.py from the text of /repo/multisim; do not edit. *)\n'
                 'From Coq Require Import List String PArith.\nFrom Verif Require Import MMessages.\nImport ListNotations.\nLocal Open Scope string_scope.\n\n')
        for s, nm in texts.items():
            fh.write('Definition %s : string := %s.\n' % (nm, q(s)))
        fh.write('\nDefinition calls : list site := [\n')
        fh.write(';\n'.join('  mkSite "%s" %d%%positive %s %d [%s] [%s]' % (
            r[0], r[1], 'true' if r[5] else 'false', r[2], '; '.join('"%s"' % k for k in r[3]),
            '; '.join('[%s]' % '; '.join('Hole' if p[0] == 'hole' else 'Numb' if p[0] == 'num' else 'Lit ' + texts[p[1]] for p in v) for v in r[4])) for r in rows))
        fh.write('].\n')
    print(len(rows), 'calls', len(texts), 'texts', sum(1 for r in rows if any(HOLE in v for v in r[4])), 'with open text')
    for r in rows:
        if any(HOLE in v for v in r[4]):
            print(r[0], r[1], r[2], [[p[1][-30:] if p[0] == 'lit' else '?' if p[0] == 'hole' else '#' for p in v] for v in r[4]])


if __name__ == '__main__':
    main()
