"""Reads the unit tests of la as text and writes what they assert as examples
about the Coq model.  Nothing of la and none of its tests is executed: each
test is parsed, its literals and calls are written as Coq terms, and a
statement outside the small fragment below is left out."""
import ast, sys, collections, re
import terms as T
from terms import Skip, Arr, Sym, SymX, SymLabel, Diff, Cmp, Nanmask, nan, inf
FUN = {n: getattr(T, n) for n in 'larry union intersection isaligned align align_axis binaryop add subtract multiply divide panel cov stack sortby lrange'.split()}
BIN = {ast.Add: '__add__', ast.Sub: '__sub__', ast.Mult: '__mul__', ast.Div: '__truediv__', ast.BitAnd: '__and__', ast.BitOr: '__or__', ast.Pow: '__pow__'}
REV = {'__add__': '__radd__', '__sub__': '__rsub__', '__mul__': '__rmul__', '__truediv__': '__rtruediv__', '__and__': '__rand__', '__or__': '__ror__'}
CMPS = {ast.Eq: '__eq__', ast.NotEq: '__ne__', ast.Lt: '__lt__', ast.Gt: '__gt__', ast.LtE: '__le__', ast.GtE: '__ge__'}
METH = {n for n in dir(Sym) if not n.startswith('_') and n not in ('x', 'label', 'shape', 'ndim', 'size', 'dtype', 'A', 'lt', 'vt', 'gt', 'un', 'kind', 't')}
DTYPES = {'float': float, 'int': int, 'bool': bool, 'str': str, 'object': object}
symbolic = lambda v: isinstance(v, (Sym, SymX, Diff))
class Poison: pass
# a function of la.farray is read as the method of the larry made of its array
FARRAY = {'ranking', 'lastrank', 'movingsum_forward', 'group_ranking', 'group_mean', 'group_median', 'demean', 'demedian', 'zscore', 'push', 'quantile'}
def farray(d, a, k):
    if not isinstance(a[0], Arr): raise Skip('farray')
    if d.startswith('group'): a = [a[0], T.larry(Arr.of(a[1], object))] + a[2:]
    r = getattr(T.larry(a[0]), d)(*a[1:], **k)
    return SymX(r.lt()) if r.kind == 'larry' else FOut(r)
class FOut:
    def __init__(self, r): self.r = r
def dotted(n):
    if isinstance(n, ast.Name): return n.id
    if isinstance(n, ast.Attribute):
        b = dotted(n.value); return b and b + '.' + n.attr
class Bound:
    def __init__(self, s, n): self.s, self.n = s, n
    @property
    def __self__(self): return self.s
    def __call__(self, *a, **k): return getattr(self.s, self.n)(*a, **k)
class Tr:
    def __init__(self, env, helpers={}): self.env = dict(env); self.helpers = helpers
    def ev(self, n):
        d = dotted(n)
        if d in self.env:
            v = self.env[d]
            if v is Poison: raise Skip('name ' + d)
            return v
        if d in ('nan', 'np.nan', 'la.nan'): return nan
        if d in ('inf', 'np.inf', 'la.inf'): return inf
        if d in DTYPES or (d or '').replace('np.', '') in DTYPES: return DTYPES[d.replace('np.', '')]
        if d in FUN or (d or '').startswith('la.') and d[3:] in FUN: return FUN[d.replace('la.', '')]
        if d in ('np.add', 'np.subtract', 'np.multiply', 'np.divide'): return T.NPF(d[3:])
        if d in ('ValueError', 'IndexError', 'TypeError', 'KeyError', 'NotImplementedError', 'AttributeError', 'RuntimeError'): return {'ValueError': ValueError, 'IndexError': IndexError, 'TypeError': TypeError, 'KeyError': KeyError, 'NotImplementedError': NotImplementedError, 'AttributeError': AttributeError, 'RuntimeError': RuntimeError}[d]
        if isinstance(n, ast.Constant): return n.value
        if isinstance(n, ast.List): return [self.ev(e) for e in n.elts]
        if isinstance(n, ast.Tuple): return tuple(self.ev(e) for e in n.elts)
        if isinstance(n, ast.Slice): return slice(*(None if e is None else self.ev(e) for e in (n.lower, n.upper, n.step)))
        if isinstance(n, ast.UnaryOp):
            v = self.ev(n.operand)
            if isinstance(n.op, ast.USub):
                if isinstance(v, (int, float, Sym)): return -v
            if isinstance(n.op, ast.Invert) and isinstance(v, Sym): return ~v
            if isinstance(n.op, ast.UAdd) and isinstance(v, Sym): return +v
            raise Skip('unary')
        if isinstance(n, ast.BinOp):
            a, b = self.ev(n.left), self.ev(n.right); m = BIN.get(type(n.op))
            if m is None: raise Skip('operator')
            if isinstance(a, Diff) or isinstance(b, Diff): raise Skip('operator')
            if isinstance(a, SymX) or isinstance(b, SymX):
                if m == '__sub__' and not isinstance(a, Sym) and not isinstance(b, Sym): return Diff(a, b)
                if isinstance(a, Sym): return getattr(a, m)(b)
                if isinstance(b, Sym) and m in REV: return getattr(b, REV[m])(a)
                raise Skip('arithmetic on x')
            if isinstance(a, Sym): return getattr(a, m)(b)
            if isinstance(b, Sym) and m in REV: return getattr(b, REV[m])(a)
            if isinstance(n.op, ast.Div) and isinstance(a, (int, float)) and isinstance(b, float) and b: return a / b
            raise Skip('arithmetic')
        if isinstance(n, ast.Compare) and len(n.ops) == 1:
            a, b = self.ev(n.left), self.ev(n.comparators[0]); o = CMPS.get(type(n.ops[0]))
            if o is None: raise Skip('comparison')
            if isinstance(a, Diff) and o == '__lt__': return a < b
            if isinstance(a, SymLabel) and o == '__eq__': return a == b
            if isinstance(b, SymLabel) and o == '__eq__': return b == a
            if isinstance(a, Sym): return getattr(a, o)(b)
            if isinstance(a, SymX) and o == '__eq__': return a == b
            if isinstance(b, SymX) and o == '__eq__': return b == a
            raise Skip('comparison')
        if isinstance(n, ast.Subscript):
            v = self.ev(n.value); k = self.ev(n.slice)
            if isinstance(v, (Sym, T.Lix)): return v[k]
            raise Skip('subscript')
        if isinstance(n, ast.Attribute):
            v = self.ev(n.value)
            if isinstance(v, Sym):
                if n.attr in ('x', 'label', 'T', 'lix', 'A'): return getattr(v, n.attr)
                if n.attr in METH or n.attr in BIN.values() or n.attr == '__getitem__': return Bound(v, n.attr)
            raise Skip('.' + n.attr)
        if isinstance(n, ast.Call): return self.call(n)
        raise Skip(type(n).__name__)
    def args(self, n):
        if any(isinstance(a, ast.Starred) for a in n.args) or any(k.arg is None for k in n.keywords): raise Skip('starred')
        return [self.ev(a) for a in n.args], {k.arg: self.ev(k.value) for k in n.keywords}
    def call(self, n):
        d = dotted(n.func)
        if d in ('np.array', 'np.asarray'): a, k = self.args(n); return Arr.of(*a, **k)
        if d == 'abs' or d == 'np.abs':
            v = self.ev(n.args[0])
            if isinstance(v, (Diff, Sym)): return abs(v)
            raise Skip('abs')
        if d == 'np.isnan': return Nanmask()
        if d in ('datetime.date', 'date', 'datetime.datetime'):
            a, k = self.args(n); import datetime
            return (datetime.datetime if d.endswith('datetime') else datetime.date)(*a)
        if d == 'slice': return slice(*self.args(n)[0])
        if d in ('larry.fromtuples', 'la.larry.fromtuples'): return Sym.fromtuples(*self.args(n)[0])
        if d in ('larry.fromlist', 'la.larry.fromlist'): return Sym.fromlist(*self.args(n)[0])
        if isinstance(n.func, ast.Attribute):
            v = self.ev(n.func.value) if d not in self.env and not (d or '').startswith(('np.', 'la.', 'self.assert')) else None
            if isinstance(v, Cmp) and n.func.attr == 'all': return v
            if isinstance(v, Arr) and n.func.attr == 'copy': return v.copy()
            if isinstance(v, Sym) and n.func.attr in METH | set(BIN.values()):
                a, k = self.args(n); return getattr(v, n.func.attr)(*a, **k)
        if d in self.helpers and not n.args:
            t = Tr({}, self.helpers); t.stmts(self.helpers[d][:-1], collections.Counter()); return t.ev(self.helpers[d][-1].value)
        if d in FARRAY and d not in self.env:
            a, k = self.args(n); return farray(d, a, k)
        f = self.ev(n.func)
        if callable(f) and f in FUN.values(): a, k = self.args(n); return f(*a, **k)
        raise Skip('call ' + (d or '?'))
    def check(self, n):
        "an assertion; True if it was one"
        d = (dotted(n.func) or '').replace('self.', '').replace('np.testing.', '')
        if d in ('assertTrue', 'failUnless', 'assert_'):
            a = n.args[0]
            if isinstance(a, ast.Call) and dotted(a.func) in ('noreference', 'nocopy'): return True
            v = self.ev(a)
            if isinstance(v, Cmp): v.rec()
            elif isinstance(v, Sym) and v.kind == 'bool': bool(v)
            elif v is not True: raise Skip('assertion')
            return True
        if d in ('ale', 'assert_larry_equal', 'assert_equal', 'assert_almost_equal', 'assert_array_equal', 'assertEqual', 'assert_array_almost_equal'):
            a, b = self.ev(n.args[0]), self.ev(n.args[1])
            if isinstance(a, FOut): a = a.r.x if isinstance(b, Arr) else a.r
            if isinstance(b, FOut): b = b.r.x if isinstance(a, Arr) else b.r
            if isinstance(a, SymLabel): a == b
            elif isinstance(b, SymLabel): b == a
            elif d in ('ale', 'assert_larry_equal') and isinstance(a, Sym) and isinstance(b, Sym): T.record('larry_same (%s) (%s)' % (a.lt(), b.lt()))
            elif symbolic(a) or symbolic(b): T.same(a, b)
            else: raise Skip('assertion')
            return True
        if d in ('assertRaises', 'assert_raises'):
            a, k = self.args(n); T.assert_raises(a[0], a[1], *a[2:], **k); return True
        return False
    def roots(self, n): return {x.id for x in ast.walk(n) if isinstance(x, ast.Name)}
    def poison(self, t):
        if isinstance(t, (ast.Tuple, ast.List)):
            for x in t.elts: self.poison(x)
        elif dotted(t): self.env[dotted(t)] = Poison
    def assign(self, t, v):
        if isinstance(t, (ast.Tuple, ast.List)):
            if not isinstance(v, (tuple, list)) or len(v) != len(t.elts): raise Skip('unpack')
            for a, b in zip(t.elts, v): self.assign(a, b)
        elif isinstance(t, ast.Name): self.env[t.id] = v
        elif isinstance(t, ast.Attribute) and dotted(t): self.env[dotted(t)] = v
        elif isinstance(t, ast.Subscript):
            if isinstance(v, (int, float)) and v == -9999: return
            o = self.ev(t.value)
            if isinstance(o, SymLabel) and isinstance(t.value, ast.Attribute):
                y = self.ev(t.value.value); y.set('y ← %s; Ok (Larry (lx y) (<[%d := %s]> (llabel y)))' % (y.lt(), self.ev(t.slice), T.labs(v))); return
            if not isinstance(o, (Sym, T.Lix)): raise Stop()
            o[self.ev(t.slice)] = v
        else: raise Stop()
    def stmts(self, body, skipped):
        for s in body:
            k = len(T.CHECKS)
            try:
                if isinstance(s, ast.Assign):
                    try:
                        v = self.ev(s.value)
                        for t in s.targets: self.assign(t, v)
                    except (Skip, TypeError, KeyError, ValueError) as e:
                        skipped[str(e)[:40]] += 1
                        for t in s.targets:
                            if isinstance(t, ast.Subscript): raise Stop()
                            self.poison(t)
                elif isinstance(s, ast.Expr) and isinstance(s.value, ast.Constant): pass
                elif isinstance(s, ast.Expr) and isinstance(s.value, ast.Call):
                    try:
                        if not self.check(s.value):
                            v = self.ev(s.value)
                    except (Skip, TypeError, KeyError, ValueError) as e:
                        del T.CHECKS[k:]; skipped[str(e)[:40]] += 1
                        d = dotted(s.value.func) or ''
                        if 'assert' not in d.lower() and d != 'ale': raise Stop()
                elif isinstance(s, ast.With) and all(dotted(getattr(i.context_expr, 'func', None)) == 'np.errstate' for i in s.items):
                    if self.stmts(s.body, skipped): return True
                elif isinstance(s, ast.AugAssign): raise Stop()
                elif isinstance(s, (ast.Pass, ast.Import, ast.ImportFrom)): pass
                else:
                    skipped['statement ' + type(s).__name__] += 1
                    for x in ast.walk(s):
                        if isinstance(x, (ast.Assign, ast.For)):
                            for t in (x.targets if isinstance(x, ast.Assign) else [x.target]):
                                if isinstance(t, ast.Subscript): raise Stop()
                                self.poison(t)
                        if isinstance(x, ast.Call) and isinstance(x.func, ast.Attribute) and x.func.attr in ('append', 'extend'): self.poison(x.func.value)
            except Stop:
                del T.CHECKS[k:]; skipped['stopped'] += 1
                return True
class Stop(Exception): pass
def read(path):
    tree = ast.parse(open(path).read()); res = collections.OrderedDict(); sk = collections.Counter(); line = {}
    # helpers without arguments, inlined: straight-line code and one return
    helpers = {f.name: f.body for f in tree.body if isinstance(f, ast.FunctionDef) and not f.args.args and 'test' not in f.name
               and isinstance(f.body[-1], ast.Return)}
    def one(name, setup, body, where):
        T.CHECKS.clear(); t = Tr({}, helpers); line[name] = where
        stop = t.stmts(setup, sk); T.CHECKS.clear()
        if not stop: t.stmts(body, sk)
        if T.CHECKS: res[name] = list(T.CHECKS)
    for n in tree.body:
        if isinstance(n, ast.ClassDef):
            fs = {f.name: f for f in n.body if isinstance(f, ast.FunctionDef)}
            su = fs['setUp'].body if 'setUp' in fs else []
            for f in fs.values():
                if f.name.startswith('test'): one('%s__%s' % (n.name, f.name), su, f.body, f.lineno)
        elif isinstance(n, ast.FunctionDef) and 'test' in n.name and not n.args.args: one(n.name, [], n.body, n.lineno)
    return res, sk, line
if __name__ == '__main__':
    for p in sys.argv[1:]:
        r, s, _ = read(p); print(p, len(r), sum(map(len, r.values())))
        for k, v in s.most_common(14): print('    ', v, k)
