#!/usr/bin/env python3
"""Generate rocq/theories/MSrcUnits.v from the text of /repo/multisim/precomp_funs.py.

The compiled functions are written out as programs over arrays (calls of other
functions of the file inlined), with the unit of every parameter (by name, see
UNITS and SPECIAL below), variable and constant.  Units of variables and
constants are found by solving the equations of all sums, comparisons and
assignments; the result is checked again by the kernel.  The source is only
parsed, never imported or run.  Usage: extract_units.py <output directory>
"""
import ast
import os
import sys
from fractions import Fraction as Fr

SRC = '/repo/multisim/precomp_funs.py'
# functions that are not written out: generic ones taking functions, wrappers
# of argument tuples, texts, structured arrays, regression models, fits
SKIP = {'upd_p_arr', '_upddate_ports_interm', '_upddate_ports_result', 'pipe1D_diff_fullstructarr', 'pipe1D_diff_structarr',
        'chp_core_diff', 'condensing_hex_solve', 'euler_forward', 'hexnum_imp_root_diff', 'hexnum_imp_fixedpoint',
        'fixed_point_to_root', 'hexnum_imp_fixedp_diff', 'hexnum_imp_newt_diff', 'solve_connector_3w_overload',
        'solve_mix_overload', 'solve_split_overload', 'solve_pump_overload', 'calc_flow_length', 'root_finder',
        'condensing_hex_quad_poly', '_process_chp_core_modulation', 'predictor_step', 'solve_pred_loop',
        'heun_predictor', 'make_poly_transf_combs_for_nb', 'extract_pca_results', 'transform_to_poly_nb',
        'transform_pca_nb', 'poly_tranfs_pred', 'root_array_secant', 'root_array_newton', 'root_array_newton_fast',
        'root_secant', 'quad_get_b', 'quad_get_c', 'lim_growth', 'chp_startup_th', 'chp_startup_el', 'chp_startup_gas',
        'chp_shutdown_th', 'chp_thermal_power', 'chp_gas_power'}


def U(m=0, kg=0, s=0, K=0):
    return (Fr(m), Fr(kg), Fr(s), Fr(K))


ONE = U()
M, M2, M3, SEC, KEL, KG = U(1), U(2), U(3), U(s=1), U(K=1), U(kg=1)
FLOW = U(kg=1, s=-1)
WATT = U(2, 1, -3)
LAM = U(1, 1, -3, -1)          # W/(m K)
ALPHA = U(0, 1, -3, -1)        # W/(m2 K)
UAU = U(2, 1, -3, -1)          # W/K
CP = U(2, 0, -2, -1)           # J/(kg K)
MCP = U(2, 1, -2, -1)          # J/K
RHO = U(-3, 1)
RHOCP = U(-1, 1, -2, -1)
NY = U(2, 0, -1)
UI = U(2, 0, -2)
KPS = U(0, 0, -1, 1)
UNITS = {}
for _u, _n in ((KEL, 'T T_ext T_port T_s T_s_lid T_amb T_inf T_wll T_fld T_ext_fld T_mean ports_all port_array res yprev y '
                     'T_A_one T_A_two T_B_one T_B_two Kelvin parr_bkp atol pv_arr delayed_pv sp pv emergency_shutdown'),
               (FLOW, 'dm dm_io dm_top dm_bot dm_port res_dm'), (CP, 'cp cp_T cp_port cp_mean cp_wll'),
               (LAM, 'lam lam_T lam_mean lam_port_fld lam_wll lam_ins lam_fld'),
               (RHO, 'rho rho_T rho_mean'), (NY, 'ny ny_T ny_mean'), (MCP, 'mcp mcp_wll mcp_fld mcp_heated'),
               (RHOCP, 'rhocp rhocp_fld'), (UI, 'ui ui_fld'), (ALPHA, 'alpha alpha_i alpha_inf alpha_fld'),
               (UAU, 'UA UA_tb UA_tb_wll UA_amb_shell UA_amb_lid UA_port UA_port_wll UA_dim1 UA_dim2 UA_dim1_wll UA_fld_wll '
                     'UA_fld_wll_fld'),
               (M, 'grid_spacing port_gsp port_subs_gsp d_i d_h s_plate s_wll s_ins cell_dist dist_min flow_length '
                   'flow_length_lid r_total r_ln_wll r_ln_ins r_i r_o L x'),
               (M2, 'A A_cell A_shell A_shell_i A_shell_ins A_p_fld_mean A_port A_channel A_plate_eff A_i A_s'),
               (M3, 'V_cell V_cell_fld'), (WATT, 'dQ_heating res_dQ'), (U(1, 0, -1), 'v'),
               (KPS, 'dT_cond dT_adv dT_total dT_heat dT_heated df0 df1'), (SEC, 'timestep vN_max_step _h h deadtime dt_arr time '
                'min_stepsize max_stepsize timeframe'), (U(K=-1), 'beta'),
               (ONE, 'process_flows stepnum port_own_idx port_link_idx _port_link_idx vertical vertical_lid lid_top top step_stable '
                     'part_id stability_breaches max_factor r_rins r_ro heat_mult channel_divisor corr_Re '
                     'num_A num_channels_sup num_channels_dmd Pr Re rtol trnc_err_cell_weight err new_trnc_err len_dt_arr dt_idx '
                     'last_dt_idx N new_length wght fill_edges sys_trnc_err num_cells_tot_nmrc step_accepted failed_steps '
                     'safety order solver_state min_factor cnt_instable modulation')):
    for _x in _n.split():
        UNITS[_x] = _u
SPECIAL = {('_port_values_to_idx', 'out'): KEL, ('_port_values_to_cont', 'out'): KEL, ('_lambda_mean_view', 'out'): LAM,
           ('UA_plate_tb', 'out'): UAU, ('UA_plate_tb_fld', 'out'): UAU, ('UA_plate_tb_wll', 'out'): UAU,
           ('UA_fld_wll_ins_amb_cyl', 'out'): UAU, ('series_circuit_UA', 'args'): UAU, ('parallel_circuit_UA', 'args'): UAU,
           ('moving_avg', 'x'): KEL, ('fill_edges', 'x'): KEL, ('moving_avg_fill_edges', 'x'): KEL,
           ('weighted_moving_avg', 'x'): KEL}
# constants with a unit: (function, value); functions fitted to temperatures in degrees Celsius have coefficients with units
CONSTS = {('cylinder_alpha_inf', '273.15'), ('vert_plane_alpha_inf', '273.15'), ('hor_plane_alpha_inf', '273.15'),
          ('_embedded_adapt_stepsize', '1e-9')}
CONSTANY = {'9.81'}
FITS = {'get_rho_water', 'rho_water', 'lambda_water', 'get_lambda_water', 'get_cp_water', 'cp_water', 'get_ny_water', 'ny_water',
        'get_Pr_water', 'Pr_water_return', 'get_beta_water', 'beta_water_return', 'get_rho_dryair', 'get_lam_dryair',
        'lam_dryair_return', 'get_ny_dryair', 'ny_dryair_return', 'humid_air_saturation_pressure', 'humid_air_sat_water_mass'}
INPLACE = {'dt_arr', 'lam_mean', 'Re', 'stability_breaches', 'err'}
RESULT = {'humid_air_saturation_pressure': [U(-1, 1, -2)], 'humid_air_sat_water_mass': [ONE], 'rho_water': [RHO], 'lambda_water': [LAM],
          'cp_water': [CP], 'ny_water': [NY], 'Pr_water_return': [ONE], 'beta_water_return': [U(K=-1)], 'lam_dryair_return': [LAM],
          'ny_dryair_return': [NY], 'water_mat_props_ext': [CP, LAM, RHO, NY], 'plane_alpha_inf': [ALPHA],
          'vert_plane_alpha_inf': [ALPHA], 'hor_plane_alpha_inf': [ALPHA]}

TREE = ast.parse(open(SRC).read())
LINES = open(SRC, 'rb').read().split(b'\n')
FUNCS = {n.name: n for n in TREE.body if isinstance(n, ast.FunctionDef)}


def segment(n):
    return LINES[n.lineno - 1][n.col_offset:n.end_col_offset].decode()


class Lin:
    """Linear combination of unknown units plus a unit."""

    def __init__(self, d=None, c=ONE):
        self.d = {k: v for k, v in (d or {}).items() if v}
        self.c = c

    def __add__(self, o):
        d = dict(self.d)
        for k, v in o.d.items():
            d[k] = d.get(k, 0) + v
        return Lin(d, tuple(a + b for a, b in zip(self.c, o.c)))

    def mul(self, q):
        return Lin({k: v * q for k, v in self.d.items()}, tuple(a * q for a in self.c))


class Solver:
    def __init__(self):
        self.rows = {}      # pivot -> Lin (pivot = Lin)
        self.bad = []

    def reduce(self, l):
        while True:
            for k in list(l.d):
                if k in self.rows:
                    c = l.d[k]
                    l = l + Lin({k: -c}) + self.rows[k].mul(c)
                    break
            else:
                return l

    def eq(self, a, b, where):
        l = self.reduce(a + b.mul(-1))
        if not l.d:
            if any(l.c):
                self.bad.append((where, l.c))
            return
        k = min(l.d)
        c = l.d[k]
        self.rows[k] = (l + Lin({k: -c})).mul(Fr(-1) / c)

    def value(self, k):
        l = self.reduce(Lin({k: Fr(1)}))
        return l.c      # free unknowns: no unit


class Gen:
    def __init__(self, name):
        self.S = Solver()
        self.nv = 0         # variables
        self.nu = 0         # unknown units
        self.site = 0
        self.vunit = {}     # variable -> unknown
        self.consts = []
        self.calls = []     # inlined calls: function, parameters, results
        self.name = name

    def unknown(self):
        self.nu += 1
        return self.nu

    def var(self, hint):
        self.nv += 1
        self.vunit[self.nv] = self.unknown()
        return self.nv

    def lv(self, v):
        return Lin({self.vunit[v]: Fr(1)})

    def new_site(self):
        self.site += 1
        return self.site

    # -- expressions: (IR, Lin)
    def dimless(self, e, where):
        self.S.eq(e[1], Lin(), where)
        return e[0]

    def const(self, fr, node, fn, txt=None):
        txt = txt or ast.unparse(node)
        u = self.unknown()
        l = Lin({u: Fr(1)})
        if fr != 0 and not (fn in FITS or txt in CONSTANY or (fn, txt) in CONSTS):
            self.S.eq(l, Lin(), (fn, node.lineno, txt))
        if fr != 0 and (txt in CONSTANY):
            self.S.eq(l, Lin({}, U(1, 0, -2)), (fn, node.lineno, txt))
        return (('const', fr, u), l)

    def fn(self, args, env, where):
        return (('fn', self.new_site(), [self.dimless(a, where) for a in args]), Lin())

    def index(self, s, env):
        """Dimensionless values an index depends on."""
        out = []

        def go(n):
            if isinstance(n, ast.Slice):
                for c in (n.lower, n.upper, n.step):
                    if c is not None:
                        go(c)
            elif isinstance(n, ast.Tuple):
                for c in n.elts:
                    go(c)
            elif isinstance(n, ast.Constant) or (isinstance(n, ast.UnaryOp) and isinstance(n.operand, ast.Constant)):
                pass
            elif isinstance(n, ast.Call) and ast.unparse(n.func) == 'slice':
                pass
            else:
                out.append(self.dimless(self.expr(n, env), (env['fn'], n.lineno, ast.unparse(n))))
        go(s)
        return out

    def place(self, n, env):
        """A variable and index sites for an expression that is a view, else None."""
        if isinstance(n, ast.Name) and n.id in env['v']:
            return env['v'][n.id], None, []
        if isinstance(n, ast.Subscript):
            p = self.place(n.value, env)
            if p:
                return p[0], self.new_site(), p[2] + self.index(n.slice, env)
        if isinstance(n, ast.Attribute) and n.attr == 'flat':
            return self.place(n.value, env)
        if isinstance(n, ast.Call) and isinstance(n.func, ast.Attribute) and n.func.attr in ('ravel', 'reshape'):
            p = self.place(n.func.value, env)
            if p:
                return p[0], self.new_site(), p[2]
        return None

    def expr(self, n, env):
        fn = env['fn']
        w = (fn, getattr(n, 'lineno', 0), ast.unparse(n))
        if isinstance(n, ast.Constant):
            if isinstance(n.value, bool) or n.value is None or isinstance(n.value, str):
                return (('const', Fr(int(bool(n.value))), None), Lin())
            txt = segment(n)
            return self.const(Fr(txt.strip().replace('_', '')), n, fn, txt)
        p = self.place(n, env)
        if p:
            v, s, idx = p
            e = ('var', v)
            if s is not None:
                e = ('sel', s, e, idx)
            return (e, self.lv(v))
        if isinstance(n, ast.Subscript):
            if isinstance(n.value, ast.Attribute) and n.value.attr == 'shape':
                return self.fn([], env, w)
            a = self.expr(n.value, env)
            return (('sel', self.new_site(), a[0], self.index(n.slice, env)), a[1])
        if isinstance(n, ast.UnaryOp):
            a = self.expr(n.operand, env)
            if isinstance(n.op, ast.USub):
                return (('neg', a[0]), a[1])
            if isinstance(n.op, ast.UAdd):
                return a
            return self.fn([a], env, w)
        if isinstance(n, ast.BinOp):
            if isinstance(n.op, ast.Pow):
                a = self.expr(n.left, env)
                try:
                    q = eval(compile(ast.Expression(n.right), '', 'eval'), {})
                except Exception:
                    q = None
                if q is None:
                    return self.fn([a, self.expr(n.right, env)], env, w)
                if float(q) == int(q):
                    return (('pow', a[0], int(q)), a[1].mul(Fr(int(q))))
                if q == 0.5 and not self.isdimless(a[1]):
                    return (('sqrt', a[0]), a[1].mul(Fr(1, 2)))
                return self.fn([a], env, w)
            a, b = self.expr(n.left, env), self.expr(n.right, env)
            if isinstance(n.op, (ast.Add, ast.Sub)):
                self.S.eq(a[1], b[1], w)
                return (('add' if isinstance(n.op, ast.Add) else 'sub', a[0], b[0]), a[1])
            if isinstance(n.op, ast.Mult):
                return (('mul', a[0], b[0]), a[1] + b[1])
            if isinstance(n.op, ast.Div):
                return (('div', a[0], b[0]), a[1] + b[1].mul(Fr(-1)))
            return self.fn([a, b], env, w)
        if isinstance(n, ast.Compare):
            if len(n.ops) > 1:
                parts = []
                l = n.left
                for o, r in zip(n.ops, n.comparators):
                    parts.append(self.expr(ast.copy_location(ast.Compare(l, [o], [r]), n), env))
                    l = r
                return self.fn(parts, env, w)
            a, b = self.expr(n.left, env), self.expr(n.comparators[0], env)
            self.S.eq(a[1], b[1], w)
            op = {ast.Lt: 'Lt', ast.LtE: 'Le', ast.Gt: 'Gt', ast.GtE: 'Ge', ast.Eq: 'Eq', ast.NotEq: 'Ne'}[type(n.ops[0])]
            return (('cmp', op, a[0], b[0]), Lin())
        if isinstance(n, ast.BoolOp):
            return self.fn([self.expr(x, env) for x in n.values], env, w)
        if isinstance(n, ast.IfExp):
            c, a, b = self.expr(n.test, env), self.expr(n.body, env), self.expr(n.orelse, env)
            self.S.eq(a[1], b[1], w)
            return (('ite', self.dimless(c, w), a[0], b[0]), a[1])
        if isinstance(n, ast.Attribute):
            t = ast.unparse(n)
            if t in ('np.inf', 'np.pi', 'np.e') or n.attr in ('shape', 'size', 'ndim'):
                return self.fn([], env, w)
        if isinstance(n, ast.Tuple):     # stacked values of one unit, or a shape
            es = [self.expr(x, env) for x in n.elts]
            out = es[-1]
            for e in reversed(es[:-1]):
                self.S.eq(e[1], out[1], w)
                out = (('ite', ('fn', self.new_site(), []), e[0], out[0]), e[1])
            return out
        if isinstance(n, ast.Call):
            f = ast.unparse(n.func)
            A = n.args
            if f in ('np.abs', 'abs'):
                a = self.expr(A[0], env)
                return (('abs', a[0]), a[1])
            if f in ('max', 'np.maximum', 'min', 'np.minimum') and len(A) > 1:
                out = self.expr(A[0], env)
                for x in A[1:]:
                    b = self.expr(x, env)
                    self.S.eq(out[1], b[1], w)
                    out = (('max' if 'max' in f else 'min', out[0], b[0]), out[1])
                return out
            if f in ('np.max', 'np.min', 'np.sum', 'np.cumsum'):
                a = self.expr(A[0], env)
                return (('red', f[3:6], self.new_site(), a[0]), a[1])
            if isinstance(n.func, ast.Attribute) and n.func.attr in ('max', 'min', 'sum') and ast.unparse(n.func.value) != 'np':
                a = self.expr(n.func.value, env)
                return (('red', n.func.attr, self.new_site(), a[0]), a[1])
            if f in ('np.greater', 'np.less', 'np.equal'):
                a, b = self.expr(A[0], env), self.expr(A[1], env)
                self.S.eq(a[1], b[1], w)
                return (('cmp', {'g': 'Gt', 'l': 'Lt', 'e': 'Eq'}[f[3]], a[0], b[0]), Lin())
            if f in ('np.exp', 'np.log', 'np.log10', 'np.any', 'np.all', 'len', 'round', 'float'):
                if f == 'len':
                    return self.fn([], env, w)
                return self.fn([self.expr(x, env) for x in A], env, w)
            if f == 'np.sqrt':
                a = self.expr(A[0], env)
                return (('sqrt', a[0]), a[1].mul(Fr(1, 2)))
            if f in ('np.zeros', 'np.empty', 'np.zeros_like'):
                for x in A:
                    if not isinstance(x, ast.Constant):
                        e = self.expr(x, env)
                        if f != 'np.zeros_like':
                            self.dimless(e, w)
                u = self.unknown()
                return (('const', Fr(0), u), Lin({u: Fr(1)}))
            if isinstance(n.func, ast.Attribute) and n.func.attr == 'copy':
                return self.expr(n.func.value, env)
            if isinstance(n.func, ast.Attribute) and n.func.attr in ('any', 'all'):
                return self.fn([self.expr(n.func.value, env)], env, w)
            if f in FUNCS:
                r = self.call(n, env)
                if len(r) != 1:
                    raise NotImplementedError('tuple result used as value: %s' % (w,))
                return (('var', r[0]), self.lv(r[0]))
        raise NotImplementedError('expression %s' % (w,))

    def isdimless(self, l):
        l = self.S.reduce(l)
        return not l.d and not any(l.c)

    # -- calls: statements are appended to env['pre']
    def bind(self, v, n, env, pre, w):
        p = self.place(n, env)
        if p:
            self.S.eq(self.lv(v), self.lv(p[0]), w)
            pre.append(('view', v, p[0], p[1] or self.new_site(), p[2]))
        else:
            e = self.expr(n, env)
            self.S.eq(self.lv(v), e[1], w)
            pre.append(('let', v, e[0]))

    def call(self, n, env):
        f = FUNCS[ast.unparse(n.func)]
        w = (env['fn'], n.lineno, ast.unparse(n)[:80])
        names = [a.arg for a in f.args.args]
        new = {'fn': f.name, 'v': {}, 'pre': None, 'ret': None}
        pre = []
        old = env['pre']
        env['pre'] = pre
        given = {}
        if f.args.vararg:
            v = self.var('args')
            e = self.expr(ast.copy_location(ast.Tuple(n.args, ast.Load()), n), env) if len(n.args) > 1 else self.expr(n.args[0], env)
            self.S.eq(self.lv(v), e[1], w)
            pre.append(('let', v, e[0]))
            new['v'][f.args.vararg.arg] = v
        else:
            for nm, a in zip(names, n.args):
                given[nm] = a
            for k in n.keywords:
                given[k.arg] = k.value
            ds = dict(zip(names[len(names) - len(f.args.defaults):], f.args.defaults))
            for nm in names:
                v = self.var(nm)
                if nm in given:
                    self.bind(v, given[nm], env, pre, w)
                else:
                    e = self.default(f, nm, ds[nm], env)
                    self.S.eq(self.lv(v), e[1], w)
                    pre.append(('let', v, e[0]))
                new['v'][nm] = v
        env['pre'] = old
        body = self.block(f.body, new)
        old.extend(pre)
        old.append(('frame', body))
        if f.name not in SKIP:
            ps = names + ([f.args.vararg.arg] if f.args.vararg else [])
            for p in ps:
                self.S.eq(self.lv(new['v'][p]), Lin({}, SPECIAL.get((f.name, p), UNITS.get(p))), w)
            for r, u in zip(new['ret'] or [], RESULT.get(f.name, [])):
                self.S.eq(self.lv(r), Lin({}, u), w)
            self.calls.append((f.name, [(p, new['v'][p]) for p in ps], new['ret'] or []))
        return new['ret'] or []

    def default(self, f, nm, node, env):
        u = SPECIAL.get((f.name, nm), UNITS.get(nm))
        e = self.expr(node, {'fn': f.name, 'v': {}, 'pre': []}) if not isinstance(node, ast.Constant) else None
        if e is None:
            txt = segment(node)
            if isinstance(node.value, bool) or node.value is None:
                return (('const', Fr(int(bool(node.value))), None), Lin())
            un = self.unknown()
            if u is not None:
                self.S.eq(Lin({un: Fr(1)}), Lin({}, u), (f.name, node.lineno, 'default ' + nm))
            return (('const', Fr(txt), un), Lin({un: Fr(1)}))
        return e

    # -- statements
    def block(self, body, env):
        out = []
        for st in body:
            env['pre'] = out
            self.stmt(st, env, out)
        return ('block', out)

    def stmt(self, st, env, out):
        w = (env['fn'], st.lineno, ast.unparse(st)[:100])
        if isinstance(st, ast.Expr):
            if isinstance(st.value, ast.Constant):
                return
            if isinstance(st.value, ast.Call) and ast.unparse(st.value.func) in ('print', 'next'):
                return
            if isinstance(st.value, ast.Call) and ast.unparse(st.value.func) in FUNCS:
                self.call(st.value, env)
                return
            raise NotImplementedError(str(w))
        if isinstance(st, ast.Assign):
            t = st.targets[0]
            if isinstance(t, ast.Tuple):
                if isinstance(st.value, ast.Call):
                    r = self.call(st.value, env)
                    assert len(r) == len(t.elts), w
                    for x, v in zip(t.elts, r):
                        self.assign_view(x.id, v, env, out, w)
                    return
                raise NotImplementedError(str(w))
            if isinstance(t, ast.Name):
                if isinstance(st.value, ast.Call) and ast.unparse(st.value.func) in ('iter',):
                    env['v'][t.id] = env['v'][st.value.args[0].id]
                    return
                if isinstance(st.value, ast.Attribute) and st.value.attr == 'shape':
                    pass
                if isinstance(st.value, ast.Call) and ast.unparse(st.value.func) in FUNCS:
                    r = self.call(st.value, env)
                    assert len(r) == 1, w
                    self.assign_view(t.id, r[0], env, out, w)
                    return
                p = self.place(st.value, env)
                if p:
                    v = self.target(t.id, env)
                    self.S.eq(self.lv(v), self.lv(p[0]), w)
                    out.append(('view', v, p[0], p[1] or self.new_site(), p[2]))
                    return
                e = self.expr(st.value, env)
                v = self.target(t.id, env)
                self.S.eq(self.lv(v), e[1], w)
                out.append(('let', v, e[0]))
                return
            self.store(t, self.expr(st.value, env), env, out, w)
            return
        if isinstance(st, ast.AugAssign):
            n = ast.copy_location(ast.BinOp(st.target, st.op, st.value), st)
            e = self.expr(n, env)
            if isinstance(st.target, ast.Name):
                v = env['v'][st.target.id]
                self.S.eq(self.lv(v), e[1], w)
                if st.target.id in INPLACE:
                    out.append(('store', v, self.new_site(), [], e[0]))
                else:
                    out.append(('let', v, e[0]))
            else:
                self.store(st.target, e, env, out, w)
            return
        if isinstance(st, ast.If):
            c = self.dimless(self.expr(st.test, env), w)
            a = self.block(st.body, env)
            b = self.block(st.orelse, env)
            env['pre'] = out
            out.append(('if', c, a, b))
            return
        if isinstance(st, ast.For):
            it = st.iter
            if isinstance(it, ast.Call) and ast.unparse(it.func) in ('range', 'nb.prange'):
                idx = [self.dimless(self.expr(x, env), w) for x in it.args if not isinstance(x, ast.Constant)]
                v = self.target(st.target.id, env)
                self.S.eq(self.lv(v), Lin(), w)
                b = self.block(st.body, env)
                env['pre'] = out
                out.append(('for', v, self.new_site(), idx, b))
                return
            k = self.var('k')
            self.S.eq(self.lv(k), Lin(), w)
            src = env['v'][it.id]
            v = self.target(st.target.id, env)
            self.S.eq(self.lv(v), self.lv(src), w)
            b = self.block(st.body, env)
            env['pre'] = out
            b[1].insert(0, ('view', v, src, self.new_site(), [('var', k)]))
            out.append(('for', k, self.new_site(), [], b))
            return
        if isinstance(st, ast.Return):
            if st.value is not None:
                vs = st.value.elts if isinstance(st.value, ast.Tuple) else [st.value]
                if env['ret'] is None:
                    env['ret'] = [self.var('ret') for _ in vs]
                for r, x in zip(env['ret'], vs):
                    if isinstance(x, ast.Call) and ast.unparse(x.func) in FUNCS:
                        q = self.call(x, env)
                        self.S.eq(self.lv(r), self.lv(q[0]), w)
                        out.append(('view', r, q[0], self.new_site(), []))
                    else:
                        self.bind(r, x, env, out, w)
            out.append(('return',))
            return
        if isinstance(st, ast.Break):
            out.append(('break',))
            return
        if isinstance(st, ast.Raise):
            out.append(('raise',))
            return
        if isinstance(st, ast.Assert):
            c = self.dimless(self.expr(st.test, env), w)
            out.append(('if', c, ('block', []), ('block', [('raise',)])))
            return
        if isinstance(st, ast.Pass):
            return
        raise NotImplementedError(str(w))

    def target(self, name, env):
        """The variable assigned to; a variable has one unit for its lifetime."""
        if name not in env['v']:
            env['v'][name] = self.var(name)
        return env['v'][name]

    def assign_view(self, name, src, env, out, w):
        v = self.target(name, env)
        self.S.eq(self.lv(v), self.lv(src), w)
        out.append(('view', v, src, self.new_site(), []))

    def store(self, t, e, env, out, w):
        p = self.place(t, env)
        if not p:
            raise NotImplementedError('store %s' % (w,))
        self.S.eq(self.lv(p[0]), e[1], w)
        out.append(('store', p[0], p[1] or self.new_site(), p[2], e[0]))

    def function(self, f):
        env = {'fn': f.name, 'v': {}, 'pre': None, 'ret': None}
        ps = [a.arg for a in f.args.args] + ([f.args.vararg.arg] if f.args.vararg else [])
        self.params = []
        for p in ps:
            v = self.var(p)
            u = SPECIAL.get((f.name, p), UNITS.get(p))
            if u is None:
                raise NotImplementedError('no unit for %s of %s' % (p, f.name))
            self.S.eq(self.lv(v), Lin({}, u), (f.name, f.lineno, p))
            env['v'][p] = v
            self.params.append((p, v))
        self.body = self.block(f.body, env)
        self.ret = env['ret'] or []
        if f.name in RESULT:
            assert len(self.ret) == len(RESULT[f.name])
            for r, u in zip(self.ret, RESULT[f.name]):
                self.S.eq(self.lv(r), Lin({}, u), (f.name, f.lineno, 'result'))
        return self


def unit_txt(u):
    h = [x * 2 for x in u]
    assert all(x.denominator == 1 for x in h), u
    if not any(h):
        return 'none'
    return '(mkU %s)' % ' '.join(str(x) if x >= 0 else '(%d)' % x for x in h)


def emit_expr(g, e):
    k = e[0]
    E = lambda x: emit_expr(g, x)
    if k == 'var':
        return '(Var %d)' % e[1]
    if k == 'const':
        u = ONE if e[2] is None else g.S.value(e[2])
        q = e[1]
        return '(Const (%s # %d) %s)' % (q.numerator if q >= 0 else '(%d)' % q.numerator, q.denominator, unit_txt(u))
    if k in ('add', 'sub', 'mul', 'div', 'max', 'min'):
        return '(%s %s %s)' % (k.capitalize(), E(e[1]), E(e[2]))
    if k in ('neg', 'abs', 'sqrt'):
        return '(%s %s)' % (k.capitalize(), E(e[1]))
    if k == 'pow':
        return '(Pow %s %s)' % (E(e[1]), e[2] if e[2] >= 0 else '(%d)' % e[2])
    if k == 'fn':
        return '(Fn %d %s)' % (e[1], emit_list(g, e[2]))
    if k == 'sel':
        return '(Sel %d %s %s)' % (e[1], E(e[2]), emit_list(g, e[3]))
    if k == 'red':
        return '(Red %s %d %s)' % ({'max': 'Maxi', 'min': 'Mini', 'sum': 'Sum', 'cum': 'Sum'}[e[1]], e[2], E(e[3]))
    if k == 'cmp':
        return '(Cmp %s %s %s)' % (e[1], E(e[2]), E(e[3]))
    if k == 'ite':
        return '(Ite %s %s %s)' % (E(e[1]), E(e[2]), E(e[3]))
    raise ValueError(k)


def emit_list(g, l):
    out = 'Nil'
    for e in reversed(l):
        out = '(Cons %s %s)' % (emit_expr(g, e), out)
    return out


def emit_stmt(g, p, ind):
    k = p[0]
    pad = ' ' * ind
    if k == 'block':
        if not p[1]:
            return pad + 'Skip'
        return pad + '(block [\n' + ';\n'.join(emit_stmt(g, x, ind + 1) for x in p[1]) + '])'
    if k == 'let':
        return pad + 'Let %d %s' % (p[1], emit_expr(g, p[2]))
    if k == 'view':
        return pad + 'View %d %d %d %s' % (p[1], p[2], p[3], emit_list(g, p[4]))
    if k == 'store':
        return pad + 'Store %d %d %s %s' % (p[1], p[2], emit_list(g, p[3]), emit_expr(g, p[4]))
    if k == 'if':
        return pad + 'If %s\n%s\n%s' % (emit_expr(g, p[1]), emit_stmt(g, p[2], ind + 1), emit_stmt(g, p[3], ind + 1))
    if k == 'for':
        return pad + 'For %d %d %s\n%s' % (p[1], p[2], emit_list(g, p[3]), emit_stmt(g, p[4], ind + 1))
    if k == 'frame':
        return pad + 'Frame\n' + emit_stmt(g, p[1], ind + 1)
    return pad + {'return': 'Return', 'break': 'Break', 'raise': 'Raise'}[k]


def main():
    gens = []
    for name, f in FUNCS.items():
        if name in SKIP:
            continue
        g = Gen(name).function(f)
        for b in g.S.bad:
            print('UNIT', name, b[0], [str(x) for x in b[1]])
        g.line = f.lineno
        gens.append(g)
    print(len(gens), 'functions', sum(g.nv for g in gens), 'variables', sum(g.site for g in gens), 'sites')
    out = ['(** * Programs of the compiled functions. Generated by /verif/tools/extract_units.py from the text of',
           '    /repo/multisim/precomp_funs.py; do not edit. *)',
           'From Coq Require Import ZArith QArith List String.', 'From Verif Require Import MUnits.', 'Import ListNotations.',
           'Local Open Scope Z_scope.', 'Local Open Scope positive_scope.', 'Local Open Scope string_scope.', '']
    names = []
    for g in gens:
        nm = 'f_' + g.name
        names.append(nm)
        out.append('(** multisim/precomp_funs.py %d *)' % g.line)
        out.append('Definition %s : func := mkF "%s" %d' % (nm, g.name, g.line))
        out.append('  [%s]' % '; '.join('("%s", %d)' % p for p in g.params))
        out.append('  [%s]' % '; '.join(str(r) for r in g.ret))
        us = ['(%d, %s)' % (v, unit_txt(g.S.value(g.vunit[v]))) for v in range(1, g.nv + 1)]
        us = [u for u in us if 'none' not in u]
        out.append('  [%s]' % '; '.join(us))
        out.append(emit_stmt(g, g.body, 2) + '.')
    out.append('')
    out.append('(** The calls written out in each function: function called, its parameters and results as variables of the caller. *)')
    out.append('Definition calls : list (string * list (string * list (string * positive) * list positive)) := [')
    out.append(';\n'.join('  ("%s", [%s])' % (g.name, ';\n    '.join('("%s", [%s], [%s])' % (
        c, '; '.join('("%s", %d)' % q for q in ps), '; '.join(map(str, rs))) for c, ps, rs in g.calls)) for g in gens) + '].')
    out.append('Definition functions : list func := [%s].' % ';\n  '.join(names))
    with open(os.path.join(sys.argv[1], 'MSrcUnits.v'), 'w') as fh:
        fh.write('\n'.join(out) + '\n')
    return gens


if __name__ == '__main__':
    main()
