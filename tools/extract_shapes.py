#!/usr/bin/env python3
"""Generate rocq/theories/MSrcShapes.v from the text of /repo/multisim.

The methods of the parts that calculate one step (get_diff, solve) are written out
as programs over shapes of arrays: calls of functions of precomp_funs.py are inlined,
attributes of the part are the variables the program starts with.  Only shapes of
arrays, the contents of index arrays, whole numbers used as indices and boolean masks
are kept.  The source is only parsed, never imported or run.
Usage: extract_shapes.py <output directory>
"""
import ast
import os
import sys

ROOT = os.environ.get('MULTISIM', '/repo/multisim')
PF = os.path.join(ROOT, 'precomp_funs.py')
FUNCS = {f.name: f for f in ast.parse(open(PF).read()).body if isinstance(f, ast.FunctionDef)}
# part, file, class, method, from the statement containing this text on
METHODS = [
    ('Pipe', 'pipe.py', 'Pipe', 'get_diff', None),
    ('PipeBranched', 'pipe_branched.py', 'PipeBranched', 'get_diff', None),
    ('PipeWithValve', 'pipe_with_valve.py', 'PipeWith3wValve', 'get_diff', None),
    ('HeatedPipe', 'heated_pipe.py', 'HeatedPipe', 'get_diff', None),
    ('CHPPlant', 'chp_plant.py', 'CHPPlant', 'get_diff', '_process_flow_invar'),
    ('TES', 'tes.py', 'Tes', 'get_diff', None),
    ('HexNum', 'hex_num.py', 'HexNum', 'get_diff', None),
    ('HexNumImpl', 'hex_num.py', 'HexNum', 'get_diff_impl', None),
    ('HeatExchanger', 'heatexchanger.py', 'HeatExchanger', 'solve', None),
    ('MixingValve', 'mixingvalve.py', 'MixingValve', 'solve', None),
    ('Pump', 'pump.py', 'Pump', 'solve', None),
]
# attributes that a method sets before it reads them: they need not exist before
LOCAL = {'_dT_cond_port'}
# index arrays and whole numbers among the attributes
INDEX = {'_port_own_idx', '_port_link_idx', 'stepnum'}


def input_args(fn, cls):
    """The attributes passed with *self._input_args."""
    tree = ast.parse(open(os.path.join(ROOT, 'parts', fn)).read())
    names, ins, base = None, [], None
    for c in tree.body:
        if isinstance(c, ast.ClassDef) and (cls is None or c.name == cls):
            base = base or (c.bases[0].id if c.bases else None)
            for n in ast.walk(c):
                if isinstance(n, ast.Assign) and ast.unparse(n.targets[0]) == 'self._input_arg_names_sorted' and isinstance(n.value, ast.List):
                    names = [e.value for e in n.value.elts]
                if isinstance(n, ast.Call) and ast.unparse(n.func) == 'self._input_arg_names_sorted.insert':
                    ins.append((n.args[0].value, n.args[1].value))
    if names is None:
        names = input_args('pipe.py', None)
    for k, a in ins:
        names = names[:k] + [a] + names[k:]
    return names


class Gen:
    def __init__(self, attrs=None):
        self.nv = 0
        self.attrs = {}
        self.skip_flat = False

    def var(self):
        self.nv += 1
        return self.nv

    # -- variables: ('arr', v), ('idx', v), ('int', v), ('mask', v), ('shape', v), ('none',)
    def attr(self, name):
        if name not in self.attrs:
            self.attrs[name] = ('idx' if name in INDEX else 'arr', self.var())
        return self.attrs[name]

    def lookup(self, n, env):
        if isinstance(n, ast.Name) and n.id in env['v']:
            return env['v'][n.id]
        t = ast.unparse(n) if isinstance(n, ast.Attribute) else ''
        if env['self']:
            for p in ('self._models.', 'self.'):
                if t.startswith(p) and t[len(p):].isidentifier() and t[len(p):] != '_models':
                    return self.attr(t[len(p):])
        return None

    # -- whole numbers
    def ix(self, n, env):
        """Integer expression or None."""
        if isinstance(n, ast.Constant) and isinstance(n.value, int) and not isinstance(n.value, bool):
            return 'IC %d' % n.value if n.value >= 0 else 'IC (%d)' % n.value
        if isinstance(n, ast.UnaryOp) and isinstance(n.op, ast.USub) and isinstance(n.operand, ast.Constant) and isinstance(n.operand.value, int):
            return 'IC (%d)' % -n.operand.value
        v = self.lookup(n, env)
        if v:
            return 'IV %d' % v[1] if v[0] == 'int' else None
        if isinstance(n, ast.BinOp) and type(n.op) in (ast.Add, ast.Sub, ast.Mult):
            a, b = self.ix(n.left, env), self.ix(n.right, env)
            if a and b:
                return '%s (%s) (%s)' % ({ast.Add: 'IAdd', ast.Sub: 'ISub', ast.Mult: 'IMul'}[type(n.op)], a, b)
            return None
        if isinstance(n, ast.Attribute) and n.attr == 'size':
            v = self.lookup(n.value, env)
            if v and v[0] in ('arr', 'idx'):
                return 'ISize %d' % v[1]
            return None
        if isinstance(n, ast.Subscript):
            if isinstance(n.value, ast.Attribute) and n.value.attr == 'shape' and isinstance(n.slice, ast.Constant):
                v = self.lookup(n.value.value, env)
                if v:
                    return 'ILen %d %d' % (v[1], n.slice.value)
            v = self.lookup(n.value, env)
            if v and v[0] == 'idx':
                i = self.ix(n.slice, env)
                if i:
                    return 'IElem %d (%s)' % (v[1], i)
        return None

    # -- selections
    def bound(self, n, env):
        if n is None:
            return 'BNone'
        if isinstance(n, ast.UnaryOp) and isinstance(n.op, ast.USub) and isinstance(n.operand, ast.Constant):
            return 'BEnd %d' % n.operand.value
        i = self.ix(n, env)
        if i is None:
            raise NotImplementedError('bound ' + ast.unparse(n))
        return 'BIx (%s)' % i

    def sel(self, n, env):
        if isinstance(n, ast.Slice):
            lo, hi = self.bound(n.lower, env), self.bound(n.upper, env)
            if n.step is None:
                st = 'SOne'
            elif ast.unparse(n.step) == '-1':
                st = 'SRev'
            else:
                i = self.ix(n.step, env)
                if i is None:
                    raise NotImplementedError('step ' + ast.unparse(n))
                st = 'SBy (%s)' % i
            return 'Sl (%s) (%s) (%s)' % (lo, hi, st)
        if isinstance(n, ast.UnaryOp) and isinstance(n.op, ast.USub) and isinstance(n.operand, ast.Constant):
            return 'End %d' % n.operand.value
        i = self.ix(n, env)
        if i:
            return 'At (%s)' % i
        v = self.lookup(n, env)
        if v and v[0] == 'idx':
            return 'Pick %d' % v[1]
        raise NotImplementedError('index ' + ast.unparse(n))

    def mask(self, n, env):
        """(variable, polarity) if the index is a boolean mask."""
        if isinstance(n, ast.UnaryOp) and isinstance(n.op, ast.Invert):
            m = self.mask(n.operand, env)
            return m and (m[0], not m[1])
        v = self.lookup(n, env)
        if v:
            return (v[1], True) if v[0] == 'mask' else None
        if isinstance(n, ast.Compare):
            x = self.var()
            e = self.ex(n, env)
            env['pre'].append('MkMask %d (%s)' % (x, e))
            return (x, True)
        return None

    def sels(self, n, env):
        return '[%s]' % '; '.join(self.sel(x, env) for x in (n.elts if isinstance(n, ast.Tuple) else [n]))

    # -- expressions
    def ex(self, n, env):
        w = (env['fn'], getattr(n, 'lineno', 0), ast.unparse(n))
        if isinstance(n, ast.Constant):
            return 'XNum'
        v = self.lookup(n, env)
        if v:
            if v[0] == 'none':
                return 'XNum'
            return 'XVar %d' % v[1]
        i = self.ix(n, env)
        if i:
            return 'XInt (%s)' % i
        if isinstance(n, ast.Subscript):
            if isinstance(n.value, ast.Attribute) and n.value.attr == 'flat':
                if self.skip_flat and ast.unparse(n.value) == self.skip_flat:
                    return 'XNum'
                i = self.ix(n.slice, env)
                return 'XFlat (%s) (%s)' % (self.ex(n.value.value, env), i)
            m = self.mask(n.slice, env)
            if m:
                return 'XMask (%s) %d %s' % (self.ex(n.value, env), m[0], 'true' if m[1] else 'false')
            return 'XSel (%s) %s' % (self.ex(n.value, env), self.sels(n.slice, env))
        if isinstance(n, ast.UnaryOp):
            return self.ex(n.operand, env)
        if isinstance(n, ast.BinOp):
            return 'XBin (%s) (%s)' % (self.ex(n.left, env), self.ex(n.right, env))
        if isinstance(n, ast.Compare):
            out = self.ex(n.left, env)
            for c in n.comparators:
                out = 'XBin (%s) (%s)' % (out, self.ex(c, env))
            return out
        if isinstance(n, ast.BoolOp):
            out = self.ex(n.values[0], env)
            for c in n.values[1:]:
                out = 'XBin (%s) (%s)' % (out, self.ex(c, env))
            return out
        if isinstance(n, ast.IfExp):
            return 'XBin (%s) (XBin (%s) (%s))' % (self.ex(n.test, env), self.ex(n.body, env), self.ex(n.orelse, env))
        if isinstance(n, ast.Attribute):
            t = ast.unparse(n)
            if t in ('np.inf', 'np.pi', 'np.e') or n.attr in ('ndim',):
                return 'XNum'
        if isinstance(n, ast.Call):
            f = ast.unparse(n.func).replace('_pf.', '')
            A = n.args
            if f in ('np.abs', 'abs', 'np.sqrt', 'np.exp', 'np.log', 'np.log10', 'float', 'round', 'int'):
                return self.ex(A[0], env)
            if f in ('max', 'min', 'np.maximum', 'np.minimum') and len(A) > 1:
                out = self.ex(A[0], env)
                for c in A[1:]:
                    out = 'XBin (%s) (%s)' % (out, self.ex(c, env))
                return out
            if f in ('np.max', 'np.min'):
                return 'XRed true (%s)' % self.ex(A[0], env)
            if f in ('np.sum', 'np.any', 'np.all'):
                return 'XRed false (%s)' % self.ex(A[0], env)
            if f == 'np.cumsum':
                return 'XCum (%s)' % self.ex(A[0], env)
            if f in ('np.zeros', 'np.empty'):
                a = A[0]
                if isinstance(a, ast.Attribute) and a.attr == 'shape':
                    return 'XLike (%s)' % self.ex(a.value, env)
                v = self.lookup(a, env)
                if v and v[0] == 'shape':
                    return 'XLike (XVar %d)' % v[1]
                i = self.ix(a, env)
                if i:
                    return 'XNew [%s]' % i
                if isinstance(a, ast.Tuple):
                    return 'XNew [%s]' % '; '.join(self.ix(x, env) for x in a.elts)
            if f in ('np.zeros_like',):
                return 'XLike (%s)' % self.ex(A[0], env)
            if isinstance(n.func, ast.Attribute):
                at = n.func.attr
                if at in ('any', 'all', 'sum'):
                    return 'XRed false (%s)' % self.ex(n.func.value, env)
                if at in ('max', 'min'):
                    return 'XRed true (%s)' % self.ex(n.func.value, env)
                if at == 'copy':
                    return self.ex(n.func.value, env)
                if at == 'reshape' and isinstance(A[0], ast.Attribute) and A[0].attr == 'shape':
                    return 'XReshape (%s) (%s)' % (self.ex(n.func.value, env), self.ex(A[0].value, env))
                if at == 'ravel':
                    return 'XRavel (%s)' % self.ex(n.func.value, env)
            if f == 'series_circuit_UA':
                out = self.ex(A[0], env)
                for c in A[1:]:
                    out = 'XBin (%s) (%s)' % (out, self.ex(c, env))
                return out
            if f in FUNCS:
                r = self.call(n, env)
                if len(r) != 1:
                    raise NotImplementedError('results %s' % (w,))
                return 'XVar %d' % r[0][1]
        raise NotImplementedError('expression %s' % (w,))

    # -- calls
    def call(self, n, env):
        f = FUNCS[ast.unparse(n.func).replace('_pf.', '')]
        names = [a.arg for a in f.args.args]
        args = []
        for a in n.args:
            if isinstance(a, ast.Starred):
                args += [ast.parse('self.' + x, mode='eval').body for x in env['input']]
            else:
                args.append(a)
        if len(args) + len(n.keywords) > len(names):
            raise NotImplementedError('too many arguments of ' + f.name)
        given = dict(zip(names, args))
        for k in n.keywords:
            given[k.arg] = k.value
        ds = dict(zip(names[len(names) - len(f.args.defaults):], f.args.defaults))
        assigned = {x.id for x in ast.walk(f) if isinstance(x, ast.Name) and isinstance(x.ctx, ast.Store)}
        new = {'fn': f.name, 'v': {}, 'pre': None, 'ret': None, 'self': False, 'input': [], 'f': f}
        for nm in names:
            if nm not in given:
                if nm not in ds:
                    raise NotImplementedError('missing argument %s of %s' % (nm, f.name))
                x = self.var()
                env['pre'].append('Let %d XNum' % x)
                new['v'][nm] = ('arr', x)
                continue
            v = self.lookup(given[nm], env)
            if v and (nm not in assigned or v[0] != 'arr'):
                new['v'][nm] = v
            else:
                i = self.ix(given[nm], env) if not isinstance(given[nm], ast.Constant) else None
                x = self.var()
                if i:
                    env['pre'].append('LetInt %d (%s)' % (x, i))
                    new['v'][nm] = ('int', x)
                else:
                    env['pre'].append('Let %d (%s)' % (x, self.ex(given[nm], env)))
                    new['v'][nm] = ('arr', x)
        env['pre'].append(self.block(f.body, new))
        return new['ret'] or []

    # -- statements
    def seq(self, out):
        return 'block [\n%s]' % ';\n'.join(out) if out else 'Skip'

    def block(self, body, env):
        """Statements; an early return or break puts the rest into the other branch."""
        out = []
        for k, st in enumerate(body):
            env['pre'] = out
            if isinstance(st, ast.If) and self.leaves(st.body) and k + 1 < len(body):
                c = self.ex(st.test, env)
                a = self.block(st.body, env)
                b = self.block(st.orelse + body[k + 1:], env)
                env['pre'] = out
                out.append('If (%s)\n(%s)\n(%s)' % (c, a, b))
                return self.seq(out)
            self.stmt(st, env, out)
            if isinstance(st, (ast.Return, ast.Break, ast.Raise)):
                break
        return self.seq(out)

    def leaves(self, body):
        return bool(body) and isinstance(body[-1], (ast.Return, ast.Break))

    def define(self, name, kind, env):
        """The variable assigned to."""
        if isinstance(name, ast.Attribute):
            v = self.lookup(name, env)
            return v[1]
        old = env['v'].get(name)
        x = old[1] if old and name not in env.get('params', ()) and old[0] == kind else self.var()
        env['v'][name] = (kind, x)
        return x

    def masked(self, name, env):
        """Is the name used as a boolean index in the function?"""
        for n in ast.walk(env['f']):
            if isinstance(n, ast.Subscript):
                s = n.slice.operand if isinstance(n.slice, ast.UnaryOp) and isinstance(n.slice.op, ast.Invert) else n.slice
                if isinstance(s, ast.Name) and s.id == name:
                    return True
        return False

    def assign(self, t, val, env, out):
        """name = expression"""
        name = t.id if isinstance(t, ast.Name) else t
        if isinstance(val, ast.Attribute) and val.attr == 'shape':
            v = self.lookup(val.value, env)
            env['v'][name] = ('shape', v[1])
            return
        if isinstance(val, ast.Compare) and isinstance(name, str) and self.masked(name, env):
            e = self.ex(val, env)
            out.append('MkMask %d (%s)' % (self.define(name, 'mask', env), e))
            return
        i = self.ix(val, env)
        if i and isinstance(name, str) and not isinstance(val, (ast.Constant, ast.UnaryOp)):
            out.append('LetInt %d (%s)' % (self.define(name, 'int', env), i))
            return
        e = self.ex(val, env)
        out.append('Let %d (%s)' % (self.define(name, 'arr', env), e))

    def store(self, t, e, env, out):
        if isinstance(t.value, ast.Attribute) and t.value.attr == 'flat':
            v = self.lookup(t.value.value, env)
            out.append('StoreFlat %d (%s) (%s)' % (v[1], self.ix(t.slice, env), e))
            return
        m = self.mask(t.slice, env)
        v = self.lookup(t.value, env)
        if v is None:
            raise NotImplementedError('store ' + ast.unparse(t))
        if m:
            out.append('StoreMask %d %d %s (%s)' % (v[1], m[0], 'true' if m[1] else 'false', e))
            return
        out.append('Store %d %s (%s)' % (v[1], self.sels(t.slice, env), e))

    def stmt(self, st, env, out):
        w = (env['fn'], st.lineno, ast.unparse(st)[:100])
        if isinstance(st, ast.Expr):
            if isinstance(st.value, ast.Constant):
                return
            f = ast.unparse(st.value.func).replace('_pf.', '') if isinstance(st.value, ast.Call) else ''
            if f == 'print':
                return
            if f in FUNCS:
                self.call(st.value, env)
                return
            raise NotImplementedError(str(w))
        if isinstance(st, ast.Assign):
            t = st.targets[0]
            if isinstance(t, ast.Tuple):
                r = self.call(st.value, env)
                if len(r) != len(t.elts):
                    raise NotImplementedError('results %s' % (w,))
                for x, v in zip(t.elts, r):
                    out.append('Let %d (XVar %d)' % (self.define(x.id if isinstance(x, ast.Name) else x, 'arr', env), v[1]))
                return
            if isinstance(t, ast.Subscript):
                e = self.ex(st.value, env)
                self.store(t, e, env, out)
                return
            self.assign(t, st.value, env, out)
            return
        if isinstance(st, ast.AugAssign):
            e = self.ex(st.value, env)
            if isinstance(st.target, ast.Subscript):
                # the entries are read, too
                self.store(st.target, e, env, out)
                return
            v = self.lookup(st.target, env)
            if v[0] == 'int':
                i = self.ix(st.value, env)
                out.append('LetInt %d (%s (IV %d) (%s))' % (v[1], {ast.Add: 'IAdd', ast.Sub: 'ISub'}[type(st.op)], v[1], i))
            else:
                out.append('Store %d [] (%s)' % (v[1], e))
            return
        if isinstance(st, ast.If):
            t = ast.unparse(st.test)
            if t == 'T_port.ndim == 1' or t == 'self._T_port.ndim == 1':    # the attribute has one dimension in every part
                out.append(self.block(st.body, env))
                env['pre'] = out
                return
            c = self.ex(st.test, env)
            before = dict(env['v'])
            a = self.block(st.body, env)
            b = self.block(st.orelse, env)
            env['pre'] = out
            out.append('If (%s)\n(%s)\n(%s)' % (c, a, b))
            return
        if isinstance(st, ast.For):
            it = st.iter
            if isinstance(it, ast.Call) and ast.unparse(it.func) in ('range', 'nb.prange') and len(it.args) == 1:
                hi = self.ix(it.args[0], env)
                x = self.define(st.target.id, 'int', env)
                b = self.block(st.body, env)
                env['pre'] = out
                out.append('For %d (%s)\n(%s)' % (x, hi, b))
                return
            raise NotImplementedError(str(w))
        if isinstance(st, ast.Return):
            if st.value is not None:
                vs = st.value.elts if isinstance(st.value, ast.Tuple) else [st.value]
                if env['ret'] is None:
                    env['ret'] = [('arr', self.var()) for _ in vs]
                for r, x in zip(env['ret'], vs):
                    out.append('Let %d (%s)' % (r[1], self.ex(x, env)))
            return
        if isinstance(st, (ast.Pass, ast.Break)):
            return
        if isinstance(st, ast.Raise):
            out.append('Raise')
            return
        raise NotImplementedError(str(w))

    def method(self, fn, cls, name, start):
        tree = ast.parse(open(os.path.join(ROOT, 'parts', fn)).read())
        for c in tree.body:
            if isinstance(c, ast.ClassDef) and (c.name == cls):
                for m in c.body:
                    if isinstance(m, ast.FunctionDef) and m.name == name:
                        break
                else:
                    continue
                break
        else:
            raise NotImplementedError('no method %s of %s' % (name, cls))
        body = m.body
        if start:
            k = [i for i, s in enumerate(body) if start in ast.unparse(s)][0]
            body = body[k:]
        self.line = body[0].lineno
        inp = input_args(fn, None)
        env = {'fn': cls + '.' + name, 'v': {}, 'pre': None, 'ret': None, 'self': True, 'input': inp, 'f': m}
        for a in m.args.args[1:]:
            self.attrs[a.arg] = ('arr', self.var())
            env['v'][a.arg] = self.attrs[a.arg]
        self.body = self.block(body, env)
        return self


def main():
    out = ['(** * The methods of the parts that calculate one step, as programs over shapes. Generated by',
           '    /verif/tools/extract_shapes.py from the text of /repo/multisim; do not edit. *)',
           'From Coq Require Import ZArith List String.', 'From Verif Require Import MShapes.', 'Import ListNotations.',
           'Local Open Scope Z_scope.', 'Local Open Scope positive_scope.', 'Local Open Scope string_scope.', '']
    names = []
    jobs = [(m, None) for m in METHODS]
    jobs += [(m, 'lam_T.flat') for m in METHODS if m[0] == 'HexNum']
    for (nm, fn, cls, meth, start), skip in jobs:
        g = Gen()
        g.skip_flat = skip
        g.method(fn, cls, meth, start)
        lo = 'm_' + nm + ('_rest' if skip else '')
        names.append(lo)
        out.append('(** multisim/parts/%s %d: %s.%s%s *)' % (fn, g.line, cls, meth,
                   ', without the reading of lam_T.flat (precomp_funs.py 288)' if skip else ''))
        out.append('Definition %s : method := mkM "%s" "%s"' % (lo, nm, meth))
        out.append('  [%s]' % '; '.join('("%s", %d)' % (a, v[1]) for a, v in g.attrs.items() if a not in LOCAL))
        out.append('(%s).' % g.body)
        print(lo, g.nv, 'variables', len(g.attrs), 'attributes')
    out.append('')
    out.append('Definition methods : list method := [%s].' % '; '.join(n for n in names if not n.endswith('_rest')))
    with open(os.path.join(sys.argv[1], 'MSrcShapes.v'), 'w') as fh:
        fh.write('\n'.join(out) + '\n')


if __name__ == '__main__':
    main()
