"""The Coq terms for the literals, arrays and larrys of a unit test."""
import datetime
from fractions import Fraction

nan = float('nan'); inf = float('inf')
class Skip(Exception): pass

# ---------------------------------------------------------------- Coq terms
def Z(z):
    if isinstance(z, bool) or not isinstance(z, int): raise Skip('Z %r' % (z,))
    return '(%d)%%Z' % z if z < 0 else '%d%%Z' % z
def optZ(a): return 'None' if a is None else '(Some %s)' % Z(a)
def lst(xs): return '[' + '; '.join(xs) + ']'
def s_(s):
    if '"' in s or '\\' in s: raise Skip('string')
    return '"%s"%%string' % s
def lab(x):
    if isinstance(x, bool): raise Skip('bool label')
    if isinstance(x, int): return 'LInt ' + Z(x)
    if isinstance(x, str): return 'LStr ' + s_(x)
    if isinstance(x, datetime.datetime): return 'LDatetime %s None' % ' '.join(Z(v) for v in (x.year, x.month, x.day, x.hour, x.minute, x.second, x.microsecond))
    if isinstance(x, datetime.date): return 'LDate ' + Z(x.toordinal())
    if isinstance(x, datetime.time): return 'LTime %s None' % ' '.join(Z(v) for v in (x.hour, x.minute, x.second, x.microsecond))
    if isinstance(x, tuple): return 'LTup ' + lst(map(lab, x))
    raise Skip('label %r' % (x,))
def labs(l):
    if not isinstance(l, (list, tuple)): raise Skip('label list')
    return lst(map(lab, l))
def labels(L): return lst(map(labs, L))
def num(x):
    if x != x: return 'NaN'
    if x == inf: return 'PInf'
    if x == -inf: return 'NInf'
    f = Fraction(repr(x))
    if f.denominator == 1: return 'num_of_Z ' + Z(f.numerator)
    return 'ra %s %d' % (Z(f.numerator), f.denominator)
def val(x):
    if x is None: return 'VNone'
    if isinstance(x, bool): return 'VBool %s' % str(x).lower()
    if isinstance(x, int): return 'VInt ' + Z(x)
    if isinstance(x, float): return 'VFloat (%s)' % num(x)
    if isinstance(x, str): return 'VStr ' + s_(x)
    if isinstance(x, datetime.date): return 'VObj ' + Z(x.toordinal())
    raise Skip('value %r' % (type(x),))
DT = {'f': 'DFloat', 'i': 'DInt', 'b': 'DBool', 's': 'DStr', 'o': 'DObj'}
def boolt(b): return 'true' if b else 'false'

# ---------------------------------------------------------------- arrays
def kind_of(flat):
    ks = {('b' if isinstance(v, bool) else 'i' if isinstance(v, int) else 'f' if isinstance(v, float) else 's' if isinstance(v, str) else 'o') for v in flat}
    if not ks: return 'f'
    if ks == {'b'}: return 'b'
    if ks <= {'b', 'i'}: return 'i'
    if ks <= {'b', 'i', 'f'}: return 'f'
    if ks == {'s'}: return 's'
    if ks == {'o'}: return 'o'
    return 'o'
def conv(v, dt):
    if dt == 'f':
        if v is None: raise Skip('None to float')
        return float(v)
    if dt == 'i': return int(v)
    if dt == 'b': return bool(v)
    return v
def dtname(d):
    if d is None: return None
    if d in (float, 'f', 'float', 'f8', float): return 'f'
    if d in (int, 'i', 'int'): return 'i'
    if d is bool or d == 'bool': return 'b'
    if d is str or d in ('S', 'str'): return 's'
    if d is object or d == 'O': return 'o'
    if isinstance(d, type) and d.__name__.startswith(('float',)): return 'f'
    if isinstance(d, type) and d.__name__.startswith(('int', 'uint')): return 'i'
    raise Skip('dtype %r' % (d,))
def prod(s):
    p = 1
    for v in s: p *= v
    return p
class Nanmask:
    "np.isnan of something symbolic"
class Arr:
    def __init__(self, shape, flat, dt=None):
        self.shape = tuple(shape); self.dt = dt or kind_of(flat); self.flat_ = [conv(v, self.dt) for v in flat]
        assert len(self.flat_) == prod(self.shape)
    @staticmethod
    def of(x, dtype=None):
        if isinstance(x, Arr): return Arr(x.shape, x.flat_, dtname(dtype) or x.dt)
        if isinstance(x, (Sym, SymX)): raise Skip('array of symbolic')
        def shp(v):
            if isinstance(v, Arr): return v.shape
            if isinstance(v, (list, tuple)):
                if not v: return (0,)
                return (len(v),) + shp(v[0])
            return ()
        def flt(v, sh):
            if isinstance(v, Arr): return list(v.flat_)
            if not sh: return [v]
            if len(v) != sh[0]: raise Skip('ragged')
            return [w for u in v for w in flt(u, sh[1:])]
        sh = shp(x); fl = flt(x, sh)
        return Arr(sh, fl, dtname(dtype))
    def coq(self): return 'Nda %s (Arr %s %s)' % (DT[self.dt], lst(map(str, self.shape)), lst(map(val, self.flat_)))
    def copy(self): return Arr(self.shape, self.flat_, self.dt)

# ---------------------------------------------------------------- symbols
CHECKS = []
def record(c): CHECKS.append(c)
class Diff:
    def __init__(self, a, b): self.a, self.b = a, b
    def __abs__(self): return self
    def __lt__(self, tol): return Cmp(self.a, self.b, True)
class Cmp:
    def __init__(self, a, b, near): self.a, self.b, self.near, self.done = a, b, near, False
    def rec(self):
        if not self.done: self.done = True; same(self.b, self.a)
        return True
    def all(self, *a): return self.rec()
    def __bool__(self): return self.rec()
def same(s, c):
    "the symbolic s against the concrete or symbolic c"
    if isinstance(c, (SymX, Sym)) and not isinstance(s, (SymX, Sym)): s, c = c, s
    if isinstance(s, SymX):
        if isinstance(c, SymX): record('xs_near (%s) (%s)' % (s.t, c.t)); return
        if isinstance(c, (list, tuple)): c = Arr.of(list(c))
        if not isinstance(c, Arr): c = Arr((), [c])
        record('x_near (%s) %s %s' % (s.t, lst(map(str, c.shape)), lst(map(val, c.flat_)))); return
    if isinstance(s, Sym):
        if isinstance(c, Sym):
            if s.kind == 'larry' or c.kind == 'larry': record('larry_near (%s) (%s)' % (s.lt(), c.lt())); return
            record('g_near (%s) (%s)' % (s.gt(), c.gt())); return
        if s.kind in ('out', 'gres', 'val'): record('v_near (%s) (%s)' % (s.vt(), val(c))); return
        if s.kind == 'lab': record('is_lab (%s) (%s)' % (s.t, lab(c))); return
        if s.kind == 'labs': record('is_labs (%s) %s' % (s.t, labs(list(c)))); return
        if s.kind == 'nat': record('is_nat (%s) %d' % (s.t, c)); return
        if s.kind == 'bool': record('is_bool (%s) %s' % (s.t, boolt(c))); return
        if s.kind == 'larry' and isinstance(c, Arr): raise Skip('larry and array')
    raise Skip('same %r %r' % (type(s), type(c)))
class SymX:
    def __init__(self, t, c=None): self.t = t; self.c = c
    def __sub__(self, o): return Diff(o, self)
    def __rsub__(self, o): return Diff(o, self)
    def __eq__(self, o): return Cmp(o, self, False)
    __hash__ = None
    def __getattr__(self, n):
        if n.startswith('__'): raise AttributeError(n)
        raise Skip('x.' + n)
    def __getitem__(self, k): raise Skip('x[]')
class SymLabel:
    def __init__(self, t): self.t = t
    def __eq__(self, L):
        if isinstance(L, SymLabel): record('labels_same (%s) (%s)' % (self.t, L.t))
        else: record('label_is (%s) %s' % (self.t, labels(L)))
        return True
    __hash__ = None
class Lix:
    def __init__(self, y): self.y = y
    def __getitem__(self, k): return Sym('y ← %s; lix_get y (%s)' % (self.y.lt(), lixkey(k)), 'gres')
    def __setitem__(self, k, v):
        y = self.y
        if isinstance(v, Sym): y.set('y ← %s; z ← %s; lix_set y (%s) (SLarry z)' % (y.lt(), v.lt(), lixkey(k)))
        elif isinstance(v, (Arr, list)): y.set('y ← %s; lix_setarray y (%s) (%s)' % (y.lt(), lixkey(k), Arr.of(v).coq()))
        else: y.set('y ← %s; lix_set y (%s) (SVal (%s))' % (y.lt(), lixkey(k), val(v)))
def lend(e):
    if e is None: return 'None'
    if isinstance(e, list): return '(Some (ELab %s))' % labs(e)
    return '(Some (EIdx %s))' % Z(e)
def lsl(k): return 'LSlice %s %s %s' % (lend(k.start), lend(k.stop), optZ(k.step))
def lixitem(k):
    if isinstance(k, slice): return 'LSl (%s)' % lsl(k)
    if isinstance(k, list): return 'LLabels ' + labs(k)
    if isinstance(k, int): return 'LInt1 ' + Z(k)
    raise Skip('lix item')
def lixkey(k):
    if isinstance(k, tuple): return 'LxTuple ' + lst(map(lixitem, k))
    if isinstance(k, slice): return 'LxSlice (%s)' % lsl(k)
    if isinstance(k, list): return 'LxLabels ' + labs(k)
    if isinstance(k, int): return 'LxInt ' + Z(k)
    raise Skip('lix key')
def sl(k): return 'Slice %s %s %s' % (optZ(k.start), optZ(k.stop), optZ(k.step))
def item(k, y):
    if isinstance(k, slice): return 'ISlice (%s)' % sl(k)
    if isinstance(k, bool): raise Skip('bool index')
    if isinstance(k, int): return 'IInt ' + Z(k)
    if isinstance(k, (list, Arr)):
        l = k.flat_ if isinstance(k, Arr) else list(k)
        if isinstance(k, Arr) and len(k.shape) != 1: raise Skip('nd index')
        if isinstance(k, tuple): raise Skip('tuple index')
        if l and isinstance(k, list) and isinstance(l[0], bool):
            if y == 'sole': return 'IList ' + lst(Z(int(v)) for v in l)   # la/deflarry.py:1837-1844
            raise Skip('list of bool in a tuple')
        if l and all(isinstance(v, bool) for v in l): return 'IBools ' + lst(map(boolt, l))
        return 'IList ' + lst(map(Z, l))
    raise Skip('item %r' % (type(k),))
def key(k):
    if isinstance(k, tuple): return 'XTuple ' + lst(item(i, None) for i in k)
    it = item(k, 'sole')
    if it.startswith('IInt'): return 'XInt' + it[4:]
    if it.startswith('ISlice'): return 'XSlice' + it[6:]
    if it.startswith('IBools'): return 'XBools' + it[6:]
    return 'XList' + it[5:]
JOIN = {'inner': 'JInner', 'outer': 'JOuter', 'left': 'JLeft', 'right': 'JRight', 'skip': 'JSkip'}
def joinarg(j):
    if isinstance(j, str): return '(JOne %s)' % JOIN.get(j, 'JBad')
    if isinstance(j, list): return '(JList %s)' % lst(JOIN.get(v, 'JBad') for v in j)
    raise Skip('join')
CMP = {'==': 'CEq', '!=': 'CNe', '<': 'CLt', '>': 'CGt', '<=': 'CLe', '>=': 'CGe'}
KOP = {'==': 'KEq', '!=': 'KNe', '<': 'KLt', '>': 'KGt', '<=': 'KLe', '>=': 'KGe'}
class Sym:
    def __init__(self, t, kind, x=None, label=None):
        self.t, self.kind, self.cx, self.cl = t, kind, x, label
    def set(self, t): self.t = t; self.cx = None
    def lt(self):
        "term of type res larry"
        if self.kind == 'larry': return self.t
        if self.kind == 'out': return 'lar_of_out (%s)' % self.t
        if self.kind == 'gres': return 'lar_of_gres (%s)' % self.t
        raise Skip('not a larry')
    def vt(self):
        if self.kind == 'out': return 'val_of_out (%s)' % self.t
        if self.kind == 'gres': return 'val_of_gres (%s)' % self.t
        if self.kind == 'val': return self.t
        raise Skip('not a value')
    def gt(self):
        if self.kind == 'out': return 'gres_of_out (%s)' % self.t
        if self.kind == 'gres': return self.t
        raise Skip('not a result')
    def un(self, f, kind='larry'): return Sym('y ← %s; %s' % (self.lt(), f), kind)
    # ---- what a test can look at
    @property
    def x(self):
        return SymX(self.lt())
    @property
    def label(self): return SymLabel(self.lt())
    @property
    def A(self): return self.x
    def copyx(self): return self.x
    def getx(self, copy=True): return self.x
    def copylabel(self):
        if self.cl is None: raise Skip('label')
        return [list(l) for l in self.cl]
    def copy(self): return Sym(self.t, self.kind, self.cx, self.cl)
    def all(self, axis=None):
        return self.un('larry_reduce RAll y %s' % optZ(axis), 'out')
    # ---- operators
    def _op(self, o):
        if isinstance(o, Sym): return 'z ← %s; ' % o.lt(), '(OpLarry z)'
        if isinstance(o, Arr): return '', '(OpArr (%s))' % o.coq()
        if isinstance(o, (int, float, str)): return '', '(OpScalar (%s))' % val(o)
        if isinstance(o, list): return '', '(OpList (%s))' % Arr.of(o).coq()
        if isinstance(o, SymX): return 'z ← %s; ' % o.t, '(OpArr (lx z))'
        return '', 'OpOther'
    def _a(self, o, f, kind='larry'):
        p, a = self._op(o); return Sym('y ← %s; %s%s y %s' % (self.lt(), p, f, a), kind)
    def __add__(self, o): return self._a(o, 'larry_arith AAdd')
    def __radd__(self, o): return self._a(o, 'larry_rarith AAdd')
    def __mul__(self, o): return self._a(o, 'larry_arith AMul')
    def __rmul__(self, o): return self._a(o, 'larry_rarith AMul')
    def __sub__(self, o):
        if self.kind != 'larry' and isinstance(o, (int, float, Arr)): return Diff(o, self)
        if self.kind == 'out' and isinstance(o, Sym) and o.kind == 'out': return Diff(o, self)
        return self._a(o, 'larry_arith ASub')
    def __rsub__(self, o):
        if self.kind != 'larry' and isinstance(o, (int, float)): return Diff(o, self)
        return self._a(o, 'larry_rarith ASub')
    def __truediv__(self, o): return self._a(o, 'larry_truediv Py3')
    def __rtruediv__(self, o): return self._a(o, 'larry_rtruediv Py3')
    def __and__(self, o): return self._a(o, 'larry_logic LAnd')
    def __rand__(self, o): return self._a(o, 'larry_logic LAnd')
    def __or__(self, o): return self._a(o, 'larry_logic LOr')
    def __ror__(self, o): return self._a(o, 'larry_logic LOr')
    def __eq__(self, o):
        if self.kind in ('lab', 'labs', 'nat', 'bool'): return Cmp(o, self, False)
        if self.kind in ('out', 'gres', 'val') and isinstance(o, (int, float)): return Cmp(o, self, False)
        return self._a(o, 'larry_compare CEq', 'out')
    def __ne__(self, o): return self._a(o, 'larry_compare CNe', 'out')
    def __lt__(self, o): return self._a(o, 'larry_compare CLt', 'out')
    def __gt__(self, o): return self._a(o, 'larry_compare CGt', 'out')
    def __le__(self, o): return self._a(o, 'larry_compare CLe', 'out')
    def __ge__(self, o): return self._a(o, 'larry_compare CGe', 'out')
    __hash__ = None
    def __neg__(self): return self.un('larry_neg y')
    def __pos__(self): return self.un('Ok (larry_pos y)')
    def __abs__(self): return self.un('larry_abs y')
    def __invert__(self):
        if self.kind == 'bool': record('is_bool (%s) false' % self.t); return True
        return self.un('larry_invert y')
    def __bool__(self):
        if self.kind == 'bool': record('is_bool (%s) true' % self.t); return True
        raise Skip('truth value')
    def __pow__(self, q): return self.power(q)
    def power(self, q):
        if isinstance(q, int): return self.un('larry_power int_pow y (%s)' % val(q))
        raise Skip('power')
    def abs(self): return abs(self)
    def sign(self): return self.un('larry_sign y')
    def isnan(self): return self.un('larry_isnan y')
    def isfinite(self): return self.un('larry_isfinite y')
    def isinf(self): return self.un('larry_isinf y')
    def invert(self): return ~self
    def cumsum(self, axis): return self.un('larry_cum CSum y %s' % optZ(axis))
    def cumprod(self, axis): return self.un('larry_cum CProd y %s' % optZ(axis))
    def clip(self, lo, hi): return self.un('larry_clip y (%s) (%s)' % (val(lo), val(hi)))
    def sqrt(self): return self.un('larry_ufunc approx_sqrt y')
    # ---- reductions
    def _r(self, op, axis): return self.un('larry_reduce %s y %s' % (op, optZ(axis)), 'out')
    def sum(self, axis=None): return self._r('RSum', axis)
    def mean(self, axis=None): return self._r('RMean', axis)
    def median(self, axis=None): return self._r('RMedian', axis)
    def max(self, axis=None): return self._r('RMax', axis)
    def min(self, axis=None): return self._r('RMin', axis)
    def any(self, axis=None): return self._r('RAny', axis)
    def prod(self, axis=None): return self.un('larry_prod y %s' % optZ(axis), 'out')
    def var(self, axis=None, ddof=0): return self._r('(RVar %s)' % Z(ddof), axis)
    def std(self, axis=None, ddof=0): return self.un('larry_std approx_sqrt y %s %s' % (optZ(axis), Z(ddof)), 'out')
    def lastrank(self, axis=-1, decay=0):
        if decay: raise Skip('decay')
        return self.un('larry_lastrank y %s' % Z(axis), 'out')
    # ---- shape and labels
    @property
    def T(self): return self.un('larry_T y')
    def swapaxes(self, a, b): return self.un('swapaxes y %s %s' % (Z(a), Z(b)))
    def squeeze(self): return self.un('Ok (squeeze y)')
    def insertaxis(self, axis, label): return self.un('insertaxis y %s (%s)' % (optZ(axis), lab(label)))
    def flatten(self, order='C'): return self.un('larry_flatten y %s' % s_(order))
    def unflatten(self): return self.un('larry_unflatten y')
    def maplabel(self, func, axis=None, copy=True):
        if func is str: raise Skip('maplabel str')
        ls = set()
        src = self
        if self.cl is None: raise Skip('maplabel')
        for l in self.cl: ls |= set(l)
        tab = lst('(%s, %s)' % (lab(l), lab(func(l))) for l in sorted(ls, key=str))
        return self.un('maplabel y (table %s) %s' % (tab, optZ(axis)))
    def getlabel(self, axis, copy=True): return self.un('getlabel y %s' % Z(axis), 'labs')
    def labelindex(self, name, axis, exact=True): return self.un('labelindex y (%s) %s %s' % (lab(name), optZ(axis), boolt(exact)), 'nat')
    def maxlabel(self, axis=None): return self.un('maxlabel y %s' % optZ(axis), 'lab')
    def minlabel(self, axis=None): return self.un('minlabel y %s' % optZ(axis), 'lab')
    def get(self, label): return self.un('larry_get y %s' % labs(label), 'val')
    def set(self_, *a):
        if len(a) == 1: self_.t = a[0]; self_.cx = None
        else: self_.set('y ← %s; larry_set y %s (%s)' % (self_.lt(), labs(a[0]), val(a[1])))
    def fill(self, v): self.set('y ← %s; larry_fill y (%s)' % (self.lt(), val(v)))
    def take(self, ids, axis): return self.un('larry_take y %s %s' % (lst(map(Z, ids.flat_ if isinstance(ids, Arr) else ids)), Z(axis)))
    def keep_label(self, op, value, axis):
        if op in KOP: t = '%s (%s)' % (KOP[op], lab(value))
        elif op == 'in': t = 'KIn ' + labs(value)
        elif op == 'not in': t = 'KNotIn ' + labs(value)
        else: raise Skip('keep_label')
        return self.un('keep_label y (%s) %s' % (t, optZ(axis)))
    def keep_x(self, op, value, vacuum=True):
        return self.un('keep_x y (Some %s) (%s) %s' % (CMP[op], val(value), boolt(vacuum)))
    def pull(self, name, axis): return self.un('pull y (%s) %s' % (lab(name), optZ(axis)), 'out')
    def lag(self, nlag, axis=-1): return self.un('lag y %s %s' % (Z(nlag), optZ(axis)))
    def flipaxis(self, axis=None, copy=True): return self.un('flipaxis y %s' % optZ(axis))
    def sortaxis(self, axis=None, reverse=False): return self.un('sortaxis y %s %s' % (optZ(axis), boolt(reverse)))
    def morph(self, label, axis): return self.un('morph y %s %s' % (labs(label), Z(axis)))
    def morph_like(self, o): return self.un('z ← %s; morph_like y z' % o.lt())
    def merge(self, o, update=False): return self.un('z ← %s; larry_merge y z %s' % (o.lt(), boolt(update)))
    def vacuum(self, axis=None):
        a = 'AxNone' if axis is None else '(AxTuple %s)' % lst(map(Z, axis)) if isinstance(axis, (tuple, list)) else '(AxInt %s)' % Z(axis)
        return self.un('vacuum y %s' % a)
    def cut_missing(self, fraction, axis=None): return self.un('cut_missing y (%s) %s' % (num(fraction), optZ(axis)))
    def push(self, window, axis=-1): return self.un('larry_push y %s %s' % (Z(window), Z(axis)))
    def nan_replace(self, v=0): return self.un('nan_replace y (%s)' % val(v))
    def ismissing(self): return self.un('Ok (larry_ismissing y)')
    def astype(self, d): return self.un('larry_astype y %s' % DT[dtname(d)])
    # ---- farray
    def demean(self, axis=None): return self.un('larry_demean y %s' % optZ(axis))
    def demedian(self, axis=None): return self.un('larry_demedian y %s' % optZ(axis))
    def zscore(self, axis=None): return self.un('larry_zscore approx_sqrt y %s' % optZ(axis))
    def ranking(self, axis=0, norm='-1,1'):
        n = {'-1,1': 'NormOne', '0,N-1': 'NormN'}.get(norm)
        if norm == 'gaussian': raise Skip('gaussian')
        return self.un('larry_ranking id y %s %s' % (optZ(axis), n or 'NormBad'))
    def quantile(self, q, axis=0): return self.un('larry_quantile np_argsort y %s %s' % (Z(q), optZ(axis)))
    def movingsum_forward(self, window, skip=0, axis=-1, norm=False): return self.un('larry_movingsum_forward y %s %d %s %s' % (Z(window), skip, Z(axis), boolt(norm)))
    def _m(self, op, window, axis): return self.un('larry_move %s y %s %s' % (op, Z(window), optZ(axis)))
    def move_sum(self, window, axis=-1): return self._m('MSum', window, axis)
    def move_mean(self, window, axis=-1): return self._m('MMean', window, axis)
    def move_std(self, window, axis=-1): return self._m('(MStd approx_sqrt)', window, axis)
    def move_min(self, window, axis=-1): return self._m('MMin', window, axis)
    def move_max(self, window, axis=-1): return self._m('MMax', window, axis)
    def move_median(self, window, axis=-1, method='loop'):
        return self.un('larry_move_median view_of y %s %s %s' % (Z(window), optZ(axis), {'loop': 'MLoop', 'strides': 'MStrides'}.get(method, 'MBad')))
    def move_ranking(self, window, axis=-1, method='strides'):
        return self.un('larry_move_ranking view_of y %s %s %s' % (Z(window), optZ(axis), {'loop': 'MLoop', 'strides': 'MStrides'}.get(method, 'MBad')))
    def _g(self, f, group, axis): return self.un('g ← %s; %s y (Some g) %s' % (group.lt(), f, Z(axis)))
    def group_ranking(self, group, axis=0): return self._g('larry_group_ranking', group, axis)
    def group_mean(self, group, axis=0): return self._g('larry_group_mean', group, axis)
    def group_median(self, group, axis=0): return self._g('larry_group_median', group, axis)
    # ---- indexing
    def __getitem__(self, k):
        if isinstance(k, Sym):
            return Sym('y ← %s; m ← %s; larry_getitem y (XLarry m)' % (self.lt(), k.lt()), 'gres')
        if isinstance(k, tuple) and any(isinstance(i, Sym) for i in k):
            pre = ''; its = []
            for n, i in enumerate(k):
                if isinstance(i, Sym): pre += 'm%d ← %s; ' % (n, i.lt()); its.append('ILarry m%d' % n)
                else: its.append(item(i, None))
            return Sym('y ← %s; %slarry_getitem y (XTuple %s)' % (self.lt(), pre, lst(its)), 'gres')
        return self.un('larry_getitem y (%s)' % key(k), 'gres')
    def __setitem__(self, k, v):
        if isinstance(v, (int, float)) and not isinstance(v, bool) and v == -9999: return
        if isinstance(k, Nanmask): raise Skip('mask')
        if isinstance(k, Sym):
            if isinstance(v, (Arr, list)): self.set('y ← %s; m ← %s; larry_setmask_array y m (%s)' % (self.lt(), k.lt(), Arr.of(v).coq())); return
            if isinstance(v, Sym): raise Skip('mask larry')
            self.set('y ← %s; m ← %s; larry_setmask y m (%s)' % (self.lt(), k.lt(), val(v))); return
        if isinstance(v, Sym): self.set('y ← %s; z ← %s; larry_setitem y (%s) (SLarry z)' % (self.lt(), v.lt(), key(k))); return
        if isinstance(v, (Arr, list)): self.set('y ← %s; larry_setarray y (%s) (%s)' % (self.lt(), key(k), Arr.of(v).coq())); return
        if isinstance(v, SymX): raise Skip('setitem x')
        self.set('y ← %s; larry_setitem y (%s) (SVal (%s))' % (self.lt(), key(k), val(v)))
    @property
    def lix(self): return Lix(self)
    # ---- conversions
    def totuples(self): return Sym('y ← %s; larry_totuples y' % self.lt(), 'tuples')
    def tolist(self): return Sym('y ← %s; larry_tolist y' % self.lt(), 'list')
    @staticmethod
    def fromtuples(d): return Sym('larry_fromtuples %s' % lst('(%s, %s)' % (labs(t[:-1]), val(t[-1])) for t in d), 'larry')
    @staticmethod
    def fromlist(d):
        return Sym('larry_fromlist (Some (%s, %s))' % (lst(map(val, d[0])), labels(d[1])), 'larry')

class larry_meta(type):
    def __instancecheck__(cls, o): return isinstance(o, Sym) and o.kind == 'larry'
class larry(Sym, metaclass=larry_meta):
    def __new__(cls, x, label=None, dtype=None, validate=True):
        if isinstance(x, Sym): raise Skip('larry of larry')
        if isinstance(x, SymX): raise Skip('larry of x')
        a = Arr.of(x, dtype)
        t = 'make (%s) %s' % (a.coq(), 'None' if label is None else '(Some %s)' % labels(label))
        s = Sym(t, 'larry', a, [list(l) for l in label] if label is not None else [list(range(n)) for n in a.shape])
        return s
# ---------------------------------------------------------------- functions
def many(ls, body):
    pre = ''.join('y%d ← %s; ' % (i, l.lt()) for i, l in enumerate(ls))
    return pre + body.replace('@', lst('y%d' % i for i in range(len(ls))))
def union(axis, *args): return Sym(many(args, 'union_labels %s @' % Z(axis)), 'labs')
def intersection(axis, *args): return Sym(many(args, 'intersection_labels %s @' % Z(axis)), 'labs')
def isaligned(a, b, axis=None): return Sym('y ← %s; z ← %s; isaligned y z %s' % (a.lt(), b.lt(), optZ(axis)), 'bool')
def align(a, b, join='inner', cast=True):
    t = 'y ← %s; z ← %s; align y z %s %s' % (a.lt(), b.lt(), joinarg(join), boolt(cast))
    return Sym('p ← (%s); Ok p.1' % t, 'larry'), Sym('p ← (%s); Ok p.2' % t, 'larry')
def align_axis(lars, axis, join='inner'):
    if not isinstance(axis, int): ax = list(axis)
    else: ax = [axis] * len(lars)
    t = many(lars, 'align_axis @ %s %s' % (lst(map(Z, ax)), JOIN.get(join, 'JBad')))
    return [Sym('l ← (%s); of_opt IndexError (l !! %d)' % (t, i), 'larry') for i in range(len(lars))]
def binaryop(func, a, b, join='inner', cast=True, missone='ignore', misstwo='ignore', **kw):
    f = {'add': 'np_arith AAdd', 'subtract': 'np_arith ASub', 'multiply': 'np_arith AMul', 'divide': 'np_arith ADiv'}.get(getattr(func, '__name__', None))
    if f is None: raise Skip('binaryop')
    def m(v): return 'None' if v == 'ignore' else '(Some (%s))' % val(v)
    return Sym('y ← %s; z ← %s; bin_larry (binaryop (%s) y z %s %s %s %s)' % (a.lt(), b.lt(), f, joinarg(join), boolt(cast), m(missone), m(misstwo)), 'larry')
def _named(n):
    def f(*a): raise Skip(n)
    f.__name__ = n; return f
class NPF:
    def __init__(self, n): self.__name__ = n
def add(a, b, join='inner', cast=True, missone='ignore', misstwo='ignore'): return binaryop(NPF('add'), a, b, join, cast, missone, misstwo)
def subtract(a, b, join='inner', cast=True, missone='ignore', misstwo='ignore'): return binaryop(NPF('subtract'), a, b, join, cast, missone, misstwo)
def multiply(a, b, join='inner', cast=True, missone='ignore', misstwo='ignore'): return binaryop(NPF('multiply'), a, b, join, cast, missone, misstwo)
def divide(a, b, join='inner', cast=True, missone='ignore', misstwo='ignore'): return binaryop(NPF('divide'), a, b, join, cast, missone, misstwo)
def panel(y): return y.un('panel y')
def cov(y): return y.un('larry_cov y')
def stack(mode, **kw):
    ns = list(kw); pre = ''.join('y%d ← %s; ' % (i, kw[n].lt()) for i, n in enumerate(ns))
    return Sym(pre + 'stack %s %s' % ({'union': 'SUnion', 'intersection': 'SInter'}.get(mode, 'SBad'), lst('(%s, y%d)' % (s_(n), i) for i, n in enumerate(ns))), 'larry')
def sortby(y, element, axis, reverse=False): return y.un('sortby np_argsort y (%s) %s %s' % (lab(element), Z(axis), boolt(reverse)))
def lrange(shape=None, label=None, start=0, step=1, dtype=None):
    if isinstance(shape, int): shape = (shape,)
    return Sym('lrange %s %s (%s) (%s) %s' % ('None' if shape is None else '(Some %s)' % lst(map(str, shape)), 'None' if label is None else '(Some %s)' % labels(label), val(start), val(step),
        'None' if dtype is None else '(Some %s)' % DT[dtname(dtype)]), 'larry')
EXN = {'ValueError', 'IndexError', 'TypeError', 'KeyError', 'RuntimeError', 'NotImplementedError', 'AttributeError'}
def assert_raises(exc, f, *a, **k):
    if exc.__name__ not in EXN: raise Skip('exception')
    r = f(*a, **k)
    if r is None and isinstance(getattr(f, '__self__', None), Sym): r = f.__self__
    if isinstance(r, tuple): r = r[0]
    if not isinstance(r, (Sym, SymX)): raise Skip('assert_raises %r' % (type(r),))
    record('raises (%s) %s' % (r.t, exc.__name__))

