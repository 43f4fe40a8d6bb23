#!/usr/bin/env python3
"""Generate rocq/theories/MSrcCalls.v from the text of /repo/multisim.

Tables of MCall.v: what each module file binds its names to, the classes with
their methods and signatures, every call whose callee is named by a function or
class of the package, by a name of one of its modules, by ``self.x`` or by
``super().x``, every use of a name of a module, and the lists of solver inputs.
The source is only parsed, never imported or run.
Usage: extract_calls.py <output directory>
"""
import ast
import os
import sys

from extract import R, files, params_of, block, assigned, wrap

TREES = {f[:-3]: ast.parse(open(os.path.join(R, f)).read()) for f in files()}


def q(s):
    return '"%s"' % s


def lst(l):
    return '[' + '; '.join(l) + ']'


def module_path(cur, level, module):
    pkg = cur.split('/')[:-1]
    for _ in range(level - 1):
        pkg = pkg[:-1]
    return '/'.join(pkg + (module.split('.') if module else []))


def as_module(path):
    if path in TREES:
        return path
    p = (path + '/' if path else '') + '__init__'
    return p if p in TREES else None


def signature(fn):
    a = fn.args
    pos = [x.arg for x in a.posonlyargs + a.args]
    kwo = ['(%s, %s)' % (q(x.arg), 'false' if d is None else 'true') for x, d in zip(a.kwonlyargs, a.kw_defaults)]
    return '(Sig %s %d %s %s %s)' % (lst(map(q, pos)), len(a.defaults), 'true' if a.vararg else 'false',
                                     lst(kwo), 'true' if a.kwarg else 'false')


def mangle(cls, n):
    if cls and n.startswith('__') and not n.endswith('__'):
        return '_' + cls.lstrip('_') + n
    return n


def bindings(m):
    """What the names of module m are bound to (the last binding counts)."""
    out = {}
    for s in TREES[m].body:
        if isinstance(s, ast.FunctionDef):
            out[s.name] = ('Func ' + signature(s),)
        elif isinstance(s, ast.ClassDef):
            out[s.name] = ('Class %s' % q(s.name),)
        elif isinstance(s, ast.ImportFrom):
            inside = s.level > 0 or (s.module or '').split('.')[0] == 'multisim'
            for a in s.names:
                n = a.asname or a.name
                if not inside:
                    out[n] = ('Outside',)
                    continue
                p = module_path(m, s.level, s.module) if s.level else '/'.join(s.module.split('.')[1:])
                sub = as_module((p + '/' if p else '') + a.name)
                if sub:
                    out[n] = ('Mod ' + q(sub),)
                else:
                    out[n] = ('From %s %s' % (q(as_module(p)), q(a.name)),)
        elif isinstance(s, ast.Import):
            for a in s.names:
                out[(a.asname or a.name).split('.')[0]] = ('Outside',)
        else:
            for n in assigned(block([s])):
                out[n] = ('Outside',)
    return {k: v[0] for k, v in out.items()}


BIND = {m: bindings(m) for m in TREES}
CLASSES = [(m, n) for m in TREES for n in TREES[m].body if isinstance(n, ast.ClassDef)]
# attributes assigned on some object: a call of such an attribute is not a method call
SET_ATTRS = {mangle(c.name, n.attr) for m, c in CLASSES for n in ast.walk(c)
             if isinstance(n, ast.Attribute) and isinstance(n.ctx, ast.Store)}


def argument(a):
    if isinstance(a, ast.Name):
        return a.id
    if isinstance(a, ast.Attribute):
        return a.attr
    return ''


def local_names(fn):
    return set(params_of(fn)) | set(assigned(block(fn.body)))


sites, uses, skipped = [], [], []


def visit(m, node, cls, fns, bound):
    for c in ast.iter_child_nodes(node):
        if isinstance(c, ast.ClassDef):
            visit(m, c, c.name, fns + [c.name], bound)
            continue
        if isinstance(c, ast.FunctionDef):
            visit(m, c, cls, fns + [c.name], bound | local_names(c))
            continue
        if isinstance(c, ast.Call):
            site(m, c, cls, fns, bound)
        if isinstance(c, ast.Attribute) and isinstance(c.value, ast.Name) and isinstance(c.ctx, ast.Load):
            n = c.value.id
            if n not in bound and BIND[m].get(n, '').startswith('Mod'):
                uses.append('(Use_of %s %s %d %s %s)' % (q(m), q('.'.join(fns)), c.lineno, q(n), q(c.attr)))
        visit(m, c, cls, fns, bound)


def site(m, c, cls, fns, bound):
    f = c.func
    if isinstance(f, ast.Name) and f.id not in bound and BIND[m].get(f.id, 'Outside') != 'Outside':
        callee = 'Plain ' + q(f.id)
    elif isinstance(f, ast.Attribute) and isinstance(f.value, ast.Name) and f.value.id == 'self' and cls:
        n = mangle(cls, f.attr)
        if n in SET_ATTRS:
            skipped.append('%s %s line %d: self.%s' % (m, '.'.join(fns), c.lineno, f.attr))
            return
        callee = 'Own %s %s' % (q(cls), q(n))
    elif (isinstance(f, ast.Attribute) and isinstance(f.value, ast.Call) and isinstance(f.value.func, ast.Name)
          and f.value.func.id == 'super'):
        callee = 'Super %s %s' % (q(cls), q(f.attr))
    elif (isinstance(f, ast.Attribute) and isinstance(f.value, ast.Name) and f.value.id not in bound
          and BIND[m].get(f.value.id, '').startswith('Mod')):
        callee = 'Of %s %s' % (q(f.value.id), q(f.attr))
    else:
        return
    pos = [argument(a) for a in c.args if not isinstance(a, ast.Starred)]
    star = any(isinstance(a, ast.Starred) for a in c.args)
    kws = ['(%s, %s)' % (q(k.arg), q(argument(k.value))) for k in c.keywords if k.arg]
    dstar = any(k.arg is None for k in c.keywords)
    sites.append('(Site %s %s %d (%s) %s %s %s %s)' % (
        q(m), q('.'.join(fns)), c.lineno, callee, lst(map(q, pos)), 'true' if star else 'false', lst(kws),
        'true' if dstar else 'false'))


def main(outdir):
    for m in TREES:
        visit(m, TREES[m], None, [], set())
    out = ['''(** * Names, classes, calls and solver inputs of the package (generated by
    tools/extract_calls.py; representation: MCall.v).  Every entry carries
    module file and line.  Calls of attributes that are assigned, hence not
    methods, are left out:
%s. *)
From Coq Require Import List String PArith.
From Verif Require Import MCall.
Import ListNotations.
Local Open Scope string_scope.
''' % ';\n'.join('    ' + s for s in skipped)]
    mods = []
    for i, m in enumerate(TREES):
        b = ['(%s, %s)' % (q(n), v) for n, v in BIND[m].items() if not v.startswith('Outside')]
        b += ['(%s, Outside)' % q(n) for n, v in BIND[m].items() if v.startswith('Outside')]
        out.append('(* multisim/%s.py *)\nDefinition names_%d : list (string * binding) :=\n %s.\n' % (m, i, wrap(lst(b))))
        mods.append('(%s, names_%d)' % (q(m), i))
    out.append('Definition modules : list (string * list (string * binding)) :=\n %s.\n' % wrap(lst(mods)))
    cl = []
    for i, (m, c) in enumerate(CLASSES):
        ms = []
        for s in c.body:
            if isinstance(s, ast.FunctionDef):
                d = [ast.unparse(x) for x in s.decorator_list]
                ms.append('(%s, (%s, %s))' % (q(mangle(c.name, s.name)), 'true' if 'staticmethod' in d else 'false',
                                              signature(s)))
        bases = [q(ast.unparse(b)) for b in c.bases if ast.unparse(b) != 'object']
        out.append('(* multisim/%s.py, line %d *)\nDefinition class_%d : class := Cls %s %s %s\n %s.\n' % (
            m, c.lineno, i, q(m), q(c.name), lst(bases), wrap(lst(ms))))
        cl.append('class_%d' % i)
    out.append('Definition classes : list class := %s.\n' % wrap(lst(cl)))
    out.append('Definition sites : list site := [\n %s].\n' % ';\n '.join(wrap(s) for s in sites))
    out.append('Definition uses : list use := [\n %s].\n' % ';\n '.join(uses))
    for m, c in CLASSES:
        for n in ast.walk(c):
            if (isinstance(n, ast.Assign) and isinstance(n.targets[0], ast.Attribute)
                    and n.targets[0].attr == '_input_arg_names_sorted'):
                if isinstance(n.value, ast.List):
                    out.append('(* multisim/%s.py, line %d *)\nDefinition inputs_%s : list string :=\n %s.\n' % (
                        m, n.lineno, c.name, wrap(lst([q(e.value) for e in n.value.elts]))))
                else:
                    t = n.value.generators[0].ifs[0].comparators[0]
                    out.append('(* multisim/%s.py, line %d: removed when solved implicitly *)\n'
                               'Definition removed_%s : list string :=\n %s.\n' % (
                                   m, n.lineno, c.name, wrap(lst([q(e.value) for e in t.elts]))))
    open(os.path.join(outdir, 'MSrcCalls.v'), 'w').write('\n'.join(out))
    print(len(sites), 'calls', len(uses), 'uses', len(CLASSES), 'classes')


if __name__ == '__main__':
    main(sys.argv[1])
