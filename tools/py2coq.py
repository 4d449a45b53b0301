"""Translates the string-fix functions of ConvertFix.py, PreProcess.py and
PostProcess.py into Gallina (see theories/Prog.v for the target language).

/repo is read as text with ast; nothing of it is run.  Functions that do not
have the supported shape are listed in MANUAL (modelled by hand elsewhere) or
EXTERNAL (not modelled: an opaque failure)."""
import ast, os, sys, collections
sys.path.insert(0, os.path.dirname(os.path.abspath(__file__)))
import coqlit as cl
import gen_tables

REPO = '/repo/aksharamukha'
OUT = '/verif/rocq/theories'
FILES = {'CF': 'ConvertFix.py', 'PP': 'PostProcess.py', 'PrP': 'PreProcess.py'}
MODALIAS = {'CF': 'CF', 'ConvertFix': 'CF', 'PostProcess': 'PP', 'PP': 'PP', 'pp': 'PP', 'PreProcess': 'PrP',
            'PrP': 'PrP', 'PreP': 'PrP'}

S = ('str',); B = ('bool',); I = ('int',)
def L(t): return ('list', t)
def P(a, b): return ('pair', a, b)

class Unsupported(Exception):
    pass

def coqty(t):
    if t == S: return 'str'
    if t == B: return 'bool'
    if t == I: return 'Z'
    if t[0] == 'list': return 'list (%s)' % coqty(t[1])
    if t[0] == 'pair': return '(%s * %s)' % (coqty(t[1]), coqty(t[2]))
    if t[0] == 'dict': return 'list (%s * %s)' % (coqty(t[1]), coqty(t[2]))
    raise Unsupported('type %r' % (t,))

RESERVED = set('''as at cofix else end fix for forall fun if IF in let match mod Prop return Set then Type
using where with do replace join chars split mem idx sidx slice zip range enumerate map flat_map filter
foreach attr table sub m st re str op run prog seq app length rev fst snd lookup sort_len_desc exn
nil cons None Some Ok Err negb orb andb true false concat'''.split())

def var(x):
    if x in RESERVED: return x + '_'
    return x

class Tr:
    """Translator of one function."""
    def __init__(self, world, mod, fn):
        self.w = world; self.mod = mod; self.fn = fn
        self.n = 0
        self.deps = []
        self.dyn = None

    def fresh(self, base='v'):
        self.n += 1
        return '%s%d' % (base, self.n)

    def bad(self, n, msg=''):
        raise Unsupported('%s:%s %s: %s' % (FILES[self.mod], getattr(n, 'lineno', '?'), msg, ast.unparse(n)[:110] if isinstance(n, ast.AST) else n))

    # ---------------------------------------------------------------- static expressions
    def ex(self, n, env, binds):
        """-> (code, type); partial subexpressions are appended to binds as (var, code)."""
        if isinstance(n, ast.Constant):
            if isinstance(n.value, bool): return ('true' if n.value else 'false', B)
            if isinstance(n.value, str): return (cl.s(n.value), S)
            if isinstance(n.value, int): return ('(%d)%%Z' % n.value, I)
            self.bad(n, 'const')
        if isinstance(n, ast.JoinedStr):
            parts = []
            for v in n.values:
                if isinstance(v, ast.Constant): parts.append(cl.s(v.value))
                else:
                    if v.conversion != -1 or v.format_spec is not None: self.bad(n, 'fstring')
                    c, t = self.ex(v.value, env, binds)
                    if t != S: self.bad(n, 'fstring type')
                    parts.append(c)
            return ('(%s)' % ' ++ '.join(parts), S)
        if isinstance(n, ast.Name):
            if n.id in env: return (var(n.id), env[n.id])
            if n.id in UNBOUND.get((self.mod, self.fn.name), ()):
                x = self.fresh(); binds.append((x, 'Err NameError : res str')); return (x, S)
            self.bad(n, 'unbound name')
        if isinstance(n, (ast.List, ast.Tuple)):
            if isinstance(n, ast.Tuple) and len(n.elts) == 2:
                a, ta = self.ex(n.elts[0], env, binds); b, tb = self.ex(n.elts[1], env, binds)
                return ('(%s, %s)' % (a, b), P(ta, tb))
            items = [self.ex(e, env, binds) for e in n.elts]
            if not items: return ('([] : list str)', L(S))
            ts = set(t for _, t in items)
            if len(ts) != 1: self.bad(n, 'hetero list')
            return ('[%s]' % '; '.join(c for c, _ in items), L(items[0][1]))
        if isinstance(n, ast.Dict):
            items = [(self.ex(k, env, binds), self.ex(v, env, binds)) for k, v in zip(n.keys, n.values)]
            ts = set((k[1], v[1]) for k, v in items)
            if len(ts) != 1: self.bad(n, 'hetero dict')
            (tk, tv), = ts
            return ('[%s]' % '; '.join('(%s, %s)' % (k[0], v[0]) for k, v in items), ('dict', tk, tv))
        if isinstance(n, ast.Attribute):
            return self.attribute(n)
        if isinstance(n, ast.BinOp):
            a, ta = self.ex(n.left, env, binds); b, tb = self.ex(n.right, env, binds)
            if isinstance(n.op, ast.Add):
                if ta == tb and (ta == S or ta[0] == 'list'): return ('(%s ++ %s)' % (a, b), ta)
                if ta == I and tb == I: return ('(%s + %s)%%Z' % (a, b), I)
            if isinstance(n.op, ast.Sub) and ta == tb == I: return ('(%s - %s)%%Z' % (a, b), I)
            if isinstance(n.op, ast.Mult) and tb == I and (ta == S or ta[0] == 'list'):
                return ('(repeat_list %s (Z.to_nat %s))' % (a, b), ta)
            self.bad(n, 'binop %s %s' % (ta, tb))
        if isinstance(n, ast.UnaryOp):
            if isinstance(n.op, ast.Not):
                a, ta = self.ex(n.operand, env, binds)
                if ta == B: return ('(negb %s)' % a, B)
            if isinstance(n.op, ast.USub) and isinstance(n.operand, ast.Constant):
                return ('(-%d)%%Z' % n.operand.value, I)
            self.bad(n, 'unary')
        if isinstance(n, ast.BoolOp):
            parts = [self.ex(v, env, binds) for v in n.values]
            parts = [(c if t == B else self.truthy(c, t, n)) for c, t in parts]
            f = 'andb' if isinstance(n.op, ast.And) else 'orb'
            c = parts[-1]
            for p in reversed(parts[:-1]): c = '(%s %s %s)' % (f, p, c)
            return (c, B)
        if isinstance(n, ast.Compare) and len(n.ops) == 1:
            a, ta = self.ex(n.left, env, binds); b, tb = self.ex(n.comparators[0], env, binds)
            o = n.ops[0]
            neg = isinstance(o, (ast.NotEq, ast.NotIn, ast.IsNot))
            if isinstance(o, (ast.Eq, ast.NotEq, ast.Is, ast.IsNot)):
                if ta == tb == S: c = '(str_eqb %s %s)' % (a, b)
                elif ta == tb == I: c = '(Z.eqb %s %s)' % (a, b)
                elif ta == tb == B: c = '(Bool.eqb %s %s)' % (a, b)
                else: self.bad(n, 'eq %s %s' % (ta, tb))
            elif isinstance(o, (ast.In, ast.NotIn)):
                if ta == S and tb == L(S): c = '(mem %s %s)' % (a, b)
                elif ta == S and tb == S: c = '(contains %s %s)' % (a, b)
                else: self.bad(n, 'in %s %s' % (ta, tb))
            elif isinstance(o, ast.Lt) and ta == tb == I: c = '(Z.ltb %s %s)' % (a, b)
            elif isinstance(o, ast.Gt) and ta == tb == I: c = '(Z.ltb %s %s)' % (b, a)
            else: self.bad(n, 'cmp')
            return ('(negb %s)' % c if neg else c, B)
        if isinstance(n, ast.Subscript):
            v, tv = self.ex(n.value, env, binds)
            if isinstance(n.slice, ast.Slice):
                g = lambda x: 'None' if x is None else '(Some %s)' % self.ex(x, env, binds)[0]
                if tv != S and tv[0] != 'list': self.bad(n, 'slice of %s' % (tv,))
                if n.slice.step is not None:
                    st = n.slice.step
                    if not (isinstance(st, ast.Constant) and st.value > 0): self.bad(n, 'step')
                    return ('(slice_step %s %s %s %d)' % (v, g(n.slice.lower), g(n.slice.upper), st.value), tv)
                return ('(slice %s %s %s)' % (v, g(n.slice.lower), g(n.slice.upper)), tv)
            i, ti = self.ex(n.slice, env, binds)
            x = self.fresh()
            if tv == S and ti == I: binds.append((x, 'sidx %s %s' % (v, i))); return (x, S)
            if tv[0] == 'list' and ti == I: binds.append((x, 'idx %s %s' % (v, i))); return (x, tv[1])
            if tv[0] == 'dict' and ti == S: binds.append((x, 'of_opt KeyError (lookup %s %s)' % (i, v))); return (x, tv[2])
            self.bad(n, 'subscript %s %s' % (tv, ti))
        if isinstance(n, (ast.ListComp, ast.GeneratorExp)):
            return self.comp(n.elt, n.generators, env, binds)
        if isinstance(n, ast.IfExp):
            c, t = self.ex(n.test, env, binds)
            a, ta = self.ex(n.body, env, binds); b, tb = self.ex(n.orelse, env, binds)
            if ta != tb: self.bad(n, 'ifexp')
            return ('(if %s then %s else %s)' % (c, a, b), ta)
        if isinstance(n, ast.Call):
            return self.call(n, env, binds)
        self.bad(n, type(n).__name__)

    def truthy(self, c, t, n):
        if t == S or t[0] == 'list': return '(negb (Nat.eqb (length %s) 0))' % c
        self.bad(n, 'truthiness')

    def attribute(self, n):
        if isinstance(n.value, ast.Name):
            m = n.value.id
            if m == 'string' and n.attr == 'punctuation': return ('punctuation', S)
            if m == 'GM':
                if n.attr in self.w.gm: return ('GM_' + n.attr, self.w.gm[n.attr])
                self.bad(n, 'GM attr')
            if m in self.w.scripts:
                d, env = self.w.scripts[m]
                if n.attr not in env: self.bad(n, 'script attr')
                return ('(attr %s %s %s)' % (cl.s(d), cl.s(m), cl.s(n.attr)), L(S))
        self.bad(n, 'attribute')

    def iter(self, n, env, binds):
        """an iterable -> (code of a list, element type)"""
        c, t = self.ex(n, env, binds)
        if t == S: return ('(chars %s)' % c, S)
        if t[0] == 'list': return (c, t[1])
        self.bad(n, 'iterable %s' % (t,))

    def target(self, n, t):
        """loop target -> (pattern, {name: type})"""
        if isinstance(n, ast.Name): return (var(n.id), {n.id: t})
        if isinstance(n, ast.Tuple) and len(n.elts) == 2 and t[0] == 'pair':
            pa, ea = self.target(n.elts[0], t[1]); pb, eb = self.target(n.elts[1], t[2])
            ea.update(eb)
            return ('(%s, %s)' % (pa, pb), ea)
        self.bad(n, 'target')

    def lam(self, pat, body):
        return "(fun %s%s => %s)" % ("'" if pat.startswith('(') else '', pat, body)

    def comp(self, elt, gens, env, binds):
        g = gens[0]
        it, t = self.iter(g.iter, env, binds)
        pat, new = self.target(g.target, t)
        env2 = dict(env); env2.update(new)
        for c in g.ifs:
            b2 = []
            cc, ct = self.ex(c, env2, b2)
            if b2 or ct != B: self.bad(elt, 'comprehension condition')
            it = '(filter %s %s)' % (self.lam(pat, cc), it)
        b2 = []
        if len(gens) == 1:
            e, te = self.ex(elt, env2, b2)
            if not b2: return ('(map %s %s)' % (self.lam(pat, e), it), L(te))
            body = ''.join('do %s <- %s; ' % b for b in b2) + 'Ok %s' % e
            x = self.fresh(); binds.append((x, 'mapR %s %s' % (self.lam(pat, body), it)))
            return (x, L(te))
        e, te = self.comp(elt, gens[1:], env2, b2)
        if not b2: return ('(flat_map %s %s)' % (self.lam(pat, e), it), te)
        body = ''.join('do %s <- %s; ' % b for b in b2) + 'Ok %s' % e
        x = self.fresh(); binds.append((x, 'mapR %s %s' % (self.lam(pat, body), it)))
        return ('(concat %s)' % x, te)

    def call(self, n, env, binds):
        f = n.func
        a = n.args
        if isinstance(f, ast.Attribute):
            if isinstance(f.value, ast.Name) and f.value.id == 'GM':
                if f.attr in ('CrunchSymbols', 'CrunchList'):
                    x, tx = self.ex(a[0], env, binds); y, ty = self.ex(a[1], env, binds)
                    want = L(S) if f.attr == 'CrunchSymbols' else S
                    if tx != want or ty != S: self.bad(n, 'crunch args')
                    v = self.fresh(); binds.append((v, '%s %s %s' % (f.attr, x, y)))
                    return (v, L(S))
            if ast.unparse(f) == 're.sub' and len(a) == 3 and not n.keywords:
                x = [self.ex(y, env, binds) for y in a]
                if any(t != S for _, t in x): self.bad(n, 'static re.sub')
                v = self.fresh(); binds.append((v, 're_sub %s %s %s' % tuple(c for c, _ in x)))
                return (v, S)
            if ast.unparse(f) == 're.compile' and 1 <= len(a) <= 2 and (len(a) == 1 or ast.unparse(a[1]) == 're.UNICODE'):
                c, t = self.ex(a[0], env, binds)
                return (c, ('pattern',))
            if ast.unparse(f) == 'unicodedata.normalize' and isinstance(a[0], ast.Constant):
                c, t = self.ex(a[1], env, binds)
                return ('(normalize_%s %s)' % (a[0].value, c), S)
            if f.attr in ('lower', 'upper') and not a:
                c, t = self.ex(f.value, env, binds)
                if t == S: return ('(py_%s %s)' % (f.attr, c), S)
            if f.attr == 'join' and len(a) == 1:
                sep, ts = self.ex(f.value, env, binds)
                it, t = self.iter(a[0], env, binds)
                if ts == S and t == S: return ('(join %s %s)' % (sep, it), S)
            if f.attr == 'split':
                v, tv = self.ex(f.value, env, binds)
                if tv == S and len(a) == 1:
                    sp, _ = self.ex(a[0], env, binds)
                    return ('(split %s %s)' % (sp, v), L(S))
                if tv == S and not a and isinstance(f.value, ast.Constant):
                    return (cl.lst(f.value.value.split()), L(S))
                if tv == S and not a: return ('(split_ws %s)' % v, L(S))
            if f.attr == 'replace' and len(a) == 2:
                v, tv = self.ex(f.value, env, binds)
                x, _ = self.ex(a[0], env, binds); y, _ = self.ex(a[1], env, binds)
                if tv == S: return ('(replace %s %s %s)' % (x, y, v), S)
            if f.attr == 'items' and not a:
                v, tv = self.ex(f.value, env, binds)
                if tv[0] == 'dict': return (v, L(P(tv[1], tv[2])))
            if f.attr == 'keys' and not a:
                v, tv = self.ex(f.value, env, binds)
                if tv[0] == 'dict': return ('(map fst %s)' % v, L(tv[1]))
            if f.attr == 'values' and not a:
                v, tv = self.ex(f.value, env, binds)
                if tv[0] == 'dict': return ('(map snd %s)' % v, L(tv[2]))
            if f.attr == 'strip' and not a and isinstance(f.value, ast.Constant):
                return (cl.s(f.value.value.strip()), S)
        if isinstance(f, ast.Name):
            if f.id == 'zip' and len(a) == 2:
                x, tx = self.iter(a[0], env, binds); y, ty = self.iter(a[1], env, binds)
                return ('(zip %s %s)' % (x, y), L(P(tx, ty)))
            if f.id == 'zip' and len(a) == 3:
                x, tx = self.iter(a[0], env, binds); y, ty = self.iter(a[1], env, binds); z, tz = self.iter(a[2], env, binds)
                return ('(zip %s (zip %s %s))' % (x, y, z), L(('triple', tx, ty, tz)))
            if f.id == 'enumerate':
                x, tx = self.iter(a[0], env, binds)
                return ('(enumerate %s)' % x, L(P(I, tx)))
            if f.id == 'map' and len(a) == 2 and isinstance(a[0], ast.Lambda):
                g = ast.comprehension(target=ast.Name(id=a[0].args.args[0].arg), iter=a[1], ifs=[], is_async=0)
                return self.comp(a[0].body, [g], env, binds)
            if f.id == 'list' and len(a) == 1:
                x, tx = self.iter(a[0], env, binds); return (x, L(tx))
            if f.id == 'len' and len(a) == 1:
                x, tx = self.ex(a[0], env, binds); return ('(Z.of_nat (length %s))' % x, I)
            if f.id == 'range':
                xs = [self.ex(y, env, binds)[0] for y in a]
                if len(xs) == 1: xs = ['0%Z'] + xs
                if len(xs) == 2: return ('(range %s %s)' % tuple(xs), L(I))
            if f.id == 'chr':
                x, tx = self.ex(a[0], env, binds); return ('[Z.to_N %s]' % x, S)
            if f.id == 'sorted' and len(a) == 1:
                kw = {k.arg: ast.unparse(k.value) for k in n.keywords}
                x, tx = self.iter(a[0], env, binds)
                if kw == {} and tx == S: return ('(sort_str %s)' % x, L(S))
                if kw == {'key': 'len', 'reverse': 'True'} and tx == S:
                    return ('(sort_len_desc %s)' % x, L(S))
                if kw == {'reverse': 'True', 'key': 'len'} and tx == S:
                    return ('(sort_len_desc %s)' % x, L(S))
            if f.id == 'str' and len(a) == 1:
                pass
        self.bad(n, 'call')

    # ---------------------------------------------------------------- dynamic expressions
    def is_dyn(self, n):
        return any(isinstance(x, ast.Name) and x.id == self.dyn for x in ast.walk(n))

    def dynx(self, n, env, binds):
        """an expression computed from the current text -> list of prog pieces"""
        if isinstance(n, ast.Name) and n.id == self.dyn: return []
        if isinstance(n, ast.Constant) and isinstance(n.value, str):
            return ['[Map (fun _ => %s)]' % cl.s(n.value)]
        if isinstance(n, ast.BinOp) and isinstance(n.op, ast.Add):
            if self.is_dyn(n.left) and not self.is_dyn(n.right):
                c, t = self.ex(n.right, env, binds); return self.dynx(n.left, env, binds) + ['[Append %s]' % c]
            if self.is_dyn(n.right) and not self.is_dyn(n.left):
                c, t = self.ex(n.left, env, binds); return self.dynx(n.right, env, binds) + ['[Prepend %s]' % c]
        if isinstance(n, ast.Subscript) and isinstance(n.slice, ast.Slice) and n.slice.step is None:
            g = lambda x: 'None' if x is None else '(Some %s)' % self.ex(x, env, binds)[0]
            return self.dynx(n.value, env, binds) + ['[Map (fun s => slice s %s %s)]' % (g(n.slice.lower), g(n.slice.upper))]
        if isinstance(n, ast.Call):
            f, a = n.func, n.args
            if isinstance(f, ast.Attribute) and self.is_dyn(f.value):
                if f.attr == 'replace' and len(a) == 2 and not self.is_dyn(a[0]) and not self.is_dyn(a[1]):
                    pre = self.dynx(f.value, env, binds)
                    x, tx = self.ex(a[0], env, binds); y, ty = self.ex(a[1], env, binds)
                    if tx != S or ty != S: self.bad(n, 'replace types')
                    return pre + ['[Replace %s %s]' % (x, y)]
                if f.attr == 'replace' and len(a) == 1:
                    return self.dynx(f.value, env, binds) + ['[Raise TypeError]']
                if f.attr in ('lower', 'upper') and not a:
                    return self.dynx(f.value, env, binds) + (['[Lower]'] if f.attr == 'lower' else ['[Map py_upper]'])
                if f.attr in ('strip',) and not a:
                    return self.dynx(f.value, env, binds) + ['[Map py_%s]' % f.attr]
            if isinstance(f, ast.Attribute) and isinstance(f.value, ast.Name) and f.value.id == 're' and f.attr == 'sub' and len(a) == 3 and not n.keywords and not isinstance(a[1], ast.Lambda):
                pre = self.dynx(a[2], env, binds)
                p, tp = self.ex(a[0], env, binds)
                t, tt = self.ex(a[1], env, binds)
                if tp != S or tt != S: self.bad(n, 're.sub types')
                return pre + ['[ReSub %s %s]' % (p, t)]
            if isinstance(f, ast.Attribute) and ast.unparse(f) == 'unicodedata.normalize' and isinstance(a[0], ast.Constant):
                return self.dynx(a[1], env, binds) + ['[Norm %s]' % {'NFC': 'true', 'NFD': 'false'}[a[0].value]]
            if isinstance(f, ast.Attribute) and f.attr == 'sub' and isinstance(f.value, ast.Name) and env.get(f.value.id) == ('pattern',) and len(a) == 2:
                t, tt = self.ex(a[0], env, binds)
                return self.dynx(a[1], env, binds) + ['[ReSub %s %s]' % (var(f.value.id), t)]
            if ast.unparse(f) == 're.sub' and len(a) == 3 and isinstance(a[1], ast.Lambda):
                p, tp = self.ex(a[0], env, binds)
                lam = {'x.group().upper()': 'py_upper (grp 0 x)', 'x.groups()[1].upper()': 'py_upper (grp 2 x)'}.get(ast.unparse(a[1].body))
                if lam: return self.dynx(a[2], env, binds) + ['[Fn (re_sub_fun %s (fun x => %s))]' % (p, lam)]
            if ast.unparse(f) == 'regex.sub' and ast.unparse(n) == REGEX_BURMESE:
                return ['[Sub burmese_space_re [TGroup 1; TGroup 2]]']
            # call of another fix function
            mod = name = None
            if isinstance(f, ast.Name): mod, name = self.mod, f.id
            elif isinstance(f, ast.Attribute) and isinstance(f.value, ast.Name) and f.value.id in MODALIAS:
                mod, name = MODALIAS[f.value.id], f.attr
            if mod and name and (mod, name) in self.w.sigs:
                sig = self.w.sigs[(mod, name)]
                given = {}
                for i, x in enumerate(a):
                    if i >= len(sig.params): self.bad(n, 'too many args')
                    given[sig.params[i]] = x
                for k in n.keywords: given[k.arg] = k.value
                pre = self.dynx(given[sig.dyn], env, binds)
                args = []
                for p in sig.params:
                    if p == sig.dyn: continue
                    if p in given:
                        c, t = self.ex(given[p], env, binds)
                        if t == S and sig.types[p] == B: c, t = self.truthy(c, t, n), B
                        if t != sig.types[p]: self.bad(n, 'arg type %s: %s vs %s' % (p, t, sig.types[p]))
                        args.append(c)
                    elif p in sig.defaults:
                        args.append(self.ex(sig.defaults[p], {}, binds)[0])
                    else:
                        self.bad(n, 'missing arg %s' % p)
                self.deps.append((mod, name))
                return pre + ['(%s)' % ' '.join(['%s_%s' % (mod, name)] + args) if args else '%s_%s' % (mod, name)]
        self.bad(n, 'dynamic')

    # ---------------------------------------------------------------- conditions
    def cond(self, n, env, binds, A, Bq):
        """code of a prog: if n then A else Bq"""
        if not self.is_dyn(n):
            c, t = self.ex(n, env, binds)
            if t != B: c = self.truthy(c, t, n)
            return '(if %s then %s else %s)' % (c, A, Bq)
        if isinstance(n, ast.UnaryOp) and isinstance(n.op, ast.Not):
            return self.cond(n.operand, env, binds, Bq, A)
        if isinstance(n, ast.Compare) and len(n.ops) == 1 and isinstance(n.comparators[0], ast.Name) and n.comparators[0].id == self.dyn:
            x, t = self.ex(n.left, env, binds)
            if isinstance(n.ops[0], ast.In): return '[IfIn %s %s %s]' % (x, A, Bq)
            if isinstance(n.ops[0], ast.NotIn): return '[IfIn %s %s %s]' % (x, Bq, A)
        if isinstance(n, ast.BoolOp):
            a, b = self.fresh('p'), self.fresh('q')
            if isinstance(n.op, ast.Or):
                c = b
                for v in reversed(n.values): c = self.cond(v, env, binds, a, c)
            else:
                c = a
                for v in reversed(n.values): c = self.cond(v, env, binds, c, b)
            return '(let %s := %s in let %s := %s in %s)' % (a, A, b, Bq, c)
        if isinstance(n, ast.Call) and isinstance(n.func, ast.Name) and n.func.id == 'any' and isinstance(n.args[0], (ast.ListComp, ast.GeneratorExp)):
            g = n.args[0]
            e = g.elt
            if len(g.generators) == 1 and isinstance(e, ast.Compare) and isinstance(e.ops[0], ast.In) and isinstance(e.left, ast.Name) \
               and isinstance(g.generators[0].target, ast.Name) and g.generators[0].target.id == e.left.id and e.comparators[0].id == self.dyn:
                it, t = self.iter(g.generators[0].iter, env, binds)
                return '(let pA := %s in fold_right (fun v acc => [IfIn v pA acc]) %s %s)' % (A, Bq, it)
        self.bad(n, 'condition')

    # ---------------------------------------------------------------- statements
    def wrap(self, binds, code):
        for v, c in reversed(binds): code = 'let! %s := %s in\n  %s' % (v, c, code)
        return code

    def cat(self, pieces):
        pieces = [p for p in pieces if p != '[]']
        return '[]' if not pieces else '\n  ++ '.join(pieces)

    def assigned(self, body):
        out = set()
        for s in body:
            for x in ast.walk(s):
                if isinstance(x, (ast.Assign, ast.AugAssign)):
                    for t in (x.targets if isinstance(x, ast.Assign) else [x.target]):
                        for y in ast.walk(t):
                            if isinstance(y, ast.Name): out.add(y.id)
        return out - {self.dyn}

    def used(self, body):
        return set(x.id for s in body for x in ast.walk(s) if isinstance(x, ast.Name))

    def assigned_first(self, v, body):
        """the body's own statement list assigns v before any statement reads it"""
        for s in body:
            if isinstance(s, ast.Assign) and isinstance(s.targets[0], ast.Name) and s.targets[0].id == v:
                return v not in self.used([s.value])
            if v in self.used([s]): return False
        return False

    def returns(self, body):
        return any(isinstance(x, ast.Return) for s in body for x in ast.walk(s))

    def stmts(self, body, env, tail, inloop=False):
        """code (a prog) for the statements; tail() gives the code for what follows when the end is reached"""
        if not body: return tail(env)
        s, rest = body[0], body[1:]
        go = lambda e=env: self.stmts(rest, e, tail, inloop)
        if isinstance(s, ast.Expr) and isinstance(s.value, (ast.Constant,)): return go()
        if isinstance(s, ast.Expr) and isinstance(s.value, ast.Call) and ast.unparse(s.value.func) == 'print': return go()
        if isinstance(s, ast.Pass): return go()
        # a discarded result of a pure call (Strng.replace(...) as a statement)
        if isinstance(s, ast.Expr) and isinstance(s.value, ast.Call) and ast.unparse(s.value.func) == '%s.replace' % self.dyn: return go()
        if isinstance(s, (ast.Import, ast.ImportFrom)): return go()
        if isinstance(s, ast.Return):
            if s.value is None: return '[Raise NoneResult]'
            binds = []
            ps = self.dynx(s.value, env, binds)
            return self.wrap(binds, self.cat(ps))
        if isinstance(s, ast.AugAssign) and isinstance(s.op, ast.Add) and isinstance(s.target, ast.Name):
            s = ast.copy_location(ast.Assign(targets=[s.target], value=ast.copy_location(ast.BinOp(left=ast.Name(id=s.target.id), op=ast.Add(), right=s.value), s)), s)
        if isinstance(s, ast.Assign) and len(s.targets) == 1:
            t = s.targets[0]
            if isinstance(t, ast.Name) and t.id == self.dyn:
                binds = []
                ps = self.dynx(s.value, env, binds)
                r = go()
                return self.wrap(binds, self.cat(ps + ['(%s)' % r if r.startswith(('let', 'if')) else r]) if r != '[]' else self.cat(ps))
            if isinstance(t, ast.Name):
                if self.is_dyn(s.value): self.bad(s, 'dynamic variable')
                binds = []
                if isinstance(s.value, ast.List) and not s.value.elts:
                    c, ty = '([] : list str)', L(S)
                else:
                    c, ty = self.ex(s.value, env, binds)
                e2 = dict(env); e2[t.id] = ty
                return self.wrap(binds, 'let %s := %s in\n  %s' % (var(t.id), c, go(e2)))
            if isinstance(t, ast.Tuple) and len(t.elts) == 2 and not self.is_dyn(s.value):
                binds = []
                c, ty = self.ex(s.value, env, binds)
                if ty[0] == 'pair':
                    pat, new = self.target(t, ty)
                    e2 = dict(env); e2.update(new)
                    return self.wrap(binds, "let '%s := %s in\n  %s" % (pat, c, go(e2)))
        if isinstance(s, ast.If):
            binds = []
            later = self.used(rest)
            leak = (self.assigned(s.body) | self.assigned(s.orelse)) & later
            if self.returns(s.body) or self.returns(s.orelse) or leak:
                if inloop: self.bad(s, 'control flow in loop')
                k = lambda e: self.stmts(rest, e, tail, inloop)
                A = self.stmts(s.body, env, k, inloop); Bq = self.stmts(s.orelse, env, k, inloop)
                return self.wrap(binds, self.cond(s.test, env, binds, '(%s)' % A, '(%s)' % Bq)) if not binds else None
            A = self.stmts(s.body, env, lambda e: '[]', inloop)
            Bq = self.stmts(s.orelse, env, lambda e: '[]', inloop)
            c = self.cond(s.test, env, binds, '(%s)' % A, '(%s)' % Bq)
            r = go()
            return self.wrap(binds, self.cat([c, '(%s)' % r if r.startswith(('let', 'if')) else r]))
        if isinstance(s, ast.For) and not s.orelse:
            binds = []
            if self.is_dyn(s.iter): self.bad(s, 'dynamic loop')
            it, t = self.iter(s.iter, env, binds)
            if t[0] == 'triple':
                pat = '(%s, (%s, %s))' % tuple(var(x.id) for x in s.target.elts)
                new = dict(zip([x.id for x in s.target.elts], t[1:]))
            else:
                pat, new = self.target(s.target, t)
            leak = self.assigned(s.body) & (self.used(rest))
            # a variable assigned in the loop and read in the loop before assignment is not supported
            if leak - set(new): self.bad(s, 'loop-carried variable %s' % leak)
            for v in self.assigned(s.body) & set(env):
                if not self.assigned_first(v, s.body): self.bad(s, 'loop reassigns %s' % v)
            e2 = dict(env); e2.update(new)
            b = self.stmts(s.body, e2, lambda e: '[]', True)
            c = 'foreach %s %s' % (it, self.lam(pat, '\n    ' + b))
            r = go()
            return self.wrap(binds, self.cat([c, '(%s)' % r if r.startswith(('let', 'if')) else r]))
        self.bad(s, type(s).__name__)

    def translate(self):
        fn = self.fn
        sig = self.w.sigs[(self.mod, fn.name)]
        self.dyn = sig.dyn
        env = {p: sig.types[p] for p in sig.params if p != sig.dyn}
        body = self.stmts(fn.body, env, lambda e: '[Raise NoneResult]')
        args = ''.join(' (%s : %s)' % (var(p), coqty(sig.types[p])) for p in sig.params if p != sig.dyn)
        return '(** aksharamukha/%s:%d-%d  def %s(%s) *)\nDefinition %s_%s%s : prog :=\n  %s.\n' % (
            FILES[self.mod], fn.lineno, fn.end_lineno, fn.name, cl.comment(ast.unparse(fn.args)), self.mod, fn.name, args, body)

class Sig: pass

class World:
    def __init__(self):
        self.gm = {}
        env = {}
        t = ast.parse(open(REPO + '/GeneralMap.py', encoding='utf8').read())
        for st in t.body:
            if isinstance(st, ast.Assign) and isinstance(st.targets[0], ast.Name):
                try: v = gen_tables.ev(st.value, env)
                except Exception: continue
                env[st.targets[0].id] = v
                k = st.targets[0].id
                if isinstance(v, str): self.gm[k] = S
                elif isinstance(v, list): self.gm[k] = L(S)
                elif isinstance(v, dict) and all(isinstance(x, str) for x in v.values()): self.gm[k] = ('dict', S, S)
        self.scripts = {n: (d, e) for d, n, e, l, a in gen_tables.scripts()}
        self.sigs = {}
        self.fns = {}
        for m, f in FILES.items():
            t = ast.parse(open('%s/%s' % (REPO, f), encoding='utf8').read())
            for s in t.body:
                if not isinstance(s, ast.FunctionDef): continue
                g = Sig()
                g.params = [a.arg for a in s.args.args]
                g.dyn = 'Strng' if 'Strng' in g.params else 'txt' if 'txt' in g.params else None
                d = s.args.defaults
                g.defaults = dict(zip(g.params[len(g.params) - len(d):], d))
                g.types = {}
                for p in g.params:
                    if p == g.dyn: continue
                    if p in g.defaults and isinstance(g.defaults[p], ast.Constant) and isinstance(g.defaults[p].value, bool): g.types[p] = B
                    elif p in ('reverse', 'nativize'): g.types[p] = B
                    elif p in ('preoptions', 'postoptions', 'preOptions', 'postOptions') or (p in g.defaults and isinstance(g.defaults[p], ast.List)): g.types[p] = L(S)
                    elif p in TYPES.get((m, s.name), {}): g.types[p] = TYPES[(m, s.name)][p]
                    else: g.types[p] = S
                # a later definition of the same name replaces the earlier one
                self.sigs[(m, s.name)] = g
                self.fns[(m, s.name)] = s

TYPES = {('PrP', 'TamilTranscribeCommon'): {'c': I}}
# names read where no assignment reached them on some branch: UnboundLocalError
UNBOUND = {('PP', 'ThaiSajjhayaOrthography'): ('cons_others',)}
REGEX_BURMESE = "regex.sub('(\\\\p{L}\\\\p{M}*) (\\\\p{L})', '\\\\1\\\\2', Strng)"

SKIP = {('CF', 'lenSort')}
# third-party tokenisers and services: not modelled
EXTERNAL = {('PP', 'JapanesePostProcess'): 'pykakasi', ('PrP', 'JapanesePreProcess'): 'pykakasi',
            ('PrP', 'KhmerWordSplit'): 'khmernltk'}

KHAR = """  [Fn (fun Strng =>
    match re_numbers Strng with
    | Err e => Err e
    | Ok Numbers =>
        if reverse then
          run [%s] Strng
        else fold_left (fun acc num => do s <- acc; do k <- %s num; Ok (replace (str_of_Z num) k s)) Numbers (Ok Strng)
    end)]"""
MANUAL = {
 ('CF', 'kharoshthiNumber'): ('(** The function takes and returns numbers and text; see FixNum.v. *)\nDefinition CF_kharoshthiNumber := kharoshthiNumber.\n', []),
 ('CF', 'KharoshthiNumerals'): ('Definition CF_KharoshthiNumerals (reverse : bool) : prog :=\n' + KHAR % (
    '; '.join('Replace %s %s' % (cl.s(a), cl.s(b)) for a, b in [('\U00010A40', '1#'), ('\U00010A41', '2#'), ('\U00010A42', '3#'), ('\U00010A43', '4#'), ('\U00010A44', '10#'), ('\U00010A45', '20#'), ('\U00010A46', '100#'), ('\U00010A47', '1000#')]), 'kharoshthiNumber') + '.\n', []),
 ('CF', 'OldPersianNumeral'): ('Definition CF_OldPersianNumeral (reverse : bool) : prog :=\n' + KHAR % (
    '; '.join('Replace %s %s' % (cl.s(a), cl.s(b)) for a, b in [('\U000103D1', '1#'), ('\U000103D2', '2#'), ('\U000103D3', '10#'), ('\U000103D4', '20#'), ('\U000103D5', '100#')]), 'oldPersianNumber') + '.\n', []),
 ('PP', 'GranthaPrakrit'): ("""Definition PP_GranthaPrakrit : prog :=
  [Replace %s %s]
  ++ PP_InsertGeminationSign "Grantha"%%u
  ++ [Fn (reduce_findall %s (run (PP_ReverseGeminationSign "Grantha"%%u)));
      Fn (reduce_findall %s (run (PP_ReverseGeminationSign "Grantha"%%u)))].
""" % (cl.s('\U00011302'), cl.s('\U00011300'), cl.s('\\s\U00011302.'), cl.s('\U0001134D\U00011302.')), [('PP', 'InsertGeminationSign'), ('PP', 'ReverseGeminationSign')]),
 ('CF', 'FixSemiticOutput'): ("""Definition CF_FixSemiticOutput (Source Target : str) : prog :=
  [Replace %s []; Try is_KeyError (CF_globals_call_Source ("Fix"%%u ++ replace "-"%%u "_"%%u Target) Source)].
""" % cl.s('\u02DE'), 'FIX'),
 ('CF', 'FixIndicOutput'): ("""Definition CF_FixIndicOutput (Source Target : str) : prog :=
  let! vm := CrunchList "ViramaMap"%%u Target in
  let! vir := idx vm 0%%Z in
  [Replace (vir ++ "_"%%u) vir; Try is_KeyError (CF_globals_call ("Fix"%%u ++ Target)); Replace %s []]
  ++ CF_ShiftDiacritics Target false
  ++ (if mem Target [%s] then [] else
      [Replace %s %s; Replace %s %s; Replace %s %s]).
""" % (cl.s('\u02BD'), '; '.join(cl.s(x) for x in ['Assamese', 'Bengali', 'Devanagari', 'Gujarati', 'Kannada', 'Malayalam', 'Oriya', 'Gurmukhi', 'Tamil', 'Telugu', 'TamilExtended', 'Grantha', 'Sharada']),
   cl.s('\u0952'), cl.s('\u2193'), cl.s('\u1CDA'), cl.s('\u2191\u2191'), cl.s('\u0951'), cl.s('\u2191')), 'FIX'),
}

def call_args(w, k, env, positional, keywords):
    """Coq arguments for a call f(Strng, *positional, **keywords), or None (TypeError)."""
    sig = w.sigs[k]
    given = {}
    rest = [p for p in sig.params]
    if rest[0] != sig.dyn: raise Exception(k)
    if len(positional) > len(rest) - 1: return None
    for p, c in zip(rest[1:], positional): given[p] = c
    for p, c in keywords.items():
        if p in given or p not in rest: return None
        given[p] = c
    out = []
    for p in rest[1:]:
        if p in given:
            c, t = given[p]
            if t == S and sig.types[p] == B: c = '(negb (Nat.eqb (length %s) 0))' % c
            elif t != sig.types[p]: raise Exception('%s %s' % (k, p))
            out.append(c)
        elif p in sig.defaults:
            d = sig.defaults[p]
            out.append(Tr(w, k[0], w.fns[k]).ex(d, {}, [])[0])
        else: return None
    return out

def dispatch(w, name, doc, keys, params, positional, keywords, missing):
    o = '(** %s *)\nDefinition %s (name : str)%s : prog :=\n' % (doc, name, ''.join(' (%s : %s)' % p for p in params))
    for k in keys:
        a = call_args(w, k, {}, positional, keywords)
        code = '[Raise TypeError]' if a is None else ' '.join(['%s_%s' % k] + a)
        o += '  if str_eqb name %s then %s else\n' % (cl.s(k[1]), code)
    return o + '  [Raise %s].\n' % missing

HEADER = """(** * %s functions, part %d (GENERATED by tools/py2coq.py from
    aksharamukha/%s; do not edit). *)
From Coq Require Import List NArith ZArith Bool.
From Verif Require Import PyStr Regex Unicode Prog GMLists GeneralMap FixNum%s.
Import ListNotations.
Local Open Scope list_scope.

"""

def main(write=True):
    w = World()
    done, failed = {}, {}
    for k, fn in w.fns.items():
        if k in SKIP: continue
        m, name = k
        sig = w.sigs[k]
        cite = '(** aksharamukha/%s:%d-%d  def %s(%s) *)\n' % (FILES[m], fn.lineno, fn.end_lineno, name, cl.comment(ast.unparse(fn.args)))
        if k in EXTERNAL:
            args = ''.join(' (%s : %s)' % (var(p), coqty(sig.types[p])) for p in sig.params if p != sig.dyn)
            done[k] = (cite + '(** Not modelled: depends on the third-party package %s. *)\nDefinition %s_%s%s : prog := [Raise (External %s)].\n' % (EXTERNAL[k], m, name, args, cl.s(EXTERNAL[k])), [])
            continue
        if k in MANUAL:
            done[k] = (cite + MANUAL[k][0], MANUAL[k][1]); continue
        t = Tr(w, m, fn)
        try:
            done[k] = (t.translate(), t.deps)
        except Unsupported as e:
            failed[k] = str(e)
    print(len(done), 'translated,', len(failed), 'failed')
    for k, v in failed.items(): print(k, v)
    fixes = [k for k in w.fns if k[0] == 'CF' and k[1].startswith('Fix') and k[1] not in ('FixSemiticOutput', 'FixIndicOutput', 'FixRomanOutput') and w.sigs[k].dyn and w.sigs[k].params[0] == w.sigs[k].dyn and k in done]
    for k in done:
        if done[k][1] == 'FIX': done[k] = (done[k][0], fixes + ([('CF', 'ShiftDiacritics')]))
    # order: topological, in files alternating between the modules
    out, pos, left, prev = [], {}, dict(done), []
    part = collections.Counter()
    def visit(k, m, acc, seen):
        if k in pos or k in acc: return True
        if k[0] != m or k in seen or k not in left: return False
        seen.add(k)
        for d in left[k][1]:
            if not visit(d, m, acc, seen): return False
        acc.append(k)
        return True
    stuck = 0
    mods = ['PP', 'CF', 'PrP']
    i = 0
    while left and stuck < 4:
        m = mods[i % 3]; i += 1
        acc = []
        for k in list(left):
            if k[0] == m:
                acc2 = list(acc)
                if visit(k, m, acc2, set()): acc = acc2
        if not acc: stuck += 1; continue
        stuck = 0
        for k in acc: pos[k] = len(out)
        part[m] += 1
        out.append((m, part[m], acc))
        for k in acc: left.pop(k)
    print('not placed:', list(left))
    names = []
    for m, n, acc in out:
        print(m, n, len(acc))
        code = HEADER % (FILES[m][:-3], n, FILES[m], ''.join(' ' + x for x in names))
        for k in acc:
            if k == ('CF', 'FixIndicOutput') or k == ('CF', 'FixSemiticOutput'):
                if 'CF_globals_call ' not in code:
                    code += dispatch(w, 'CF_globals_call', 'ConvertFix.py:373 globals()[name](Strng), for the names "Fix..." of the module', fixes, [], [], {}, 'KeyError') + '\n'
                    code += dispatch(w, 'CF_globals_call_Source', 'ConvertFix.py:358 globals()[name](Strng, Source); a string passed for a flag counts as true iff not empty', fixes, [('Source', 'str')], [('Source', S)], {}, 'KeyError') + '\n'
                    code += dispatch(w, 'CF_getattr_reverse', 'Convert.py:63 getattr(CF, name)(Strng, reverse=True)', fixes, [], [], {'reverse': ('true', B)}, 'AttributeError') + '\n'
                    code += dispatch(w, 'CF_getattr_Source_reverse', 'Convert.py:290 getattr(CF, name)(Strng, Source, reverse=True)', fixes, [('Source', 'str')], [('Source', S)], {'reverse': ('true', B)}, 'AttributeError') + '\n'
            code += done[k][0] + '\n'
        fname = FILES[m][:-3] + str(n)
        names.append(fname)
        if write: open('%s/%s.v' % (OUT, fname), 'w', encoding='utf8').write(code)
    code = HEADER.replace('%s functions, part %d', 'Dispatch by name').replace(' from\n    aksharamukha/%s', '') % ''.join(' ' + x for x in names)
    for m in ('PrP', 'PP'):
        fns = sorted(k for k in w.fns if k[0] == m)
        code += '(** inspect.getmembers(%s, isfunction): the functions defined in aksharamukha/%s, sorted by name (transliterate.py:574-577). *)\nDefinition %s_names : list str :=\n  %s.\n\n' % (FILES[m][:-3], FILES[m], m, cl.lst([k[1] for k in fns]))
        ok = [k for k in fns if w.sigs[k].dyn and w.sigs[k].params[0] == w.sigs[k].dyn]
        bad = [k for k in fns if k not in ok]
        print('first parameter is not the text:', bad)
        d = dispatch(w, m + '_call', 'getattr(%s, name)(Strng)' % FILES[m][:-3], ok, [], [], {}, 'AttributeError')
        d = d.replace('  [Raise AttributeError].', ''.join('  if str_eqb name %s then [Raise TypeError] else\n' % cl.s(k[1]) for k in bad) + '  [Raise AttributeError].')
        code += d + '\n'
    code += dispatch(w, 'PP_call_Target', 'PostOptions.py:114 getattr(PP, name)(Strng, Target)', [('PP', x) for x in ('NasalToAnusvara', 'MToAnusvara', 'AnusvaraToNasal', 'YaToYYa', 'VaToBa')], [('Target', 'str')], [('Target', S)], {}, 'AttributeError')
    if write: open(OUT + '/Dispatch.v', 'w', encoding='utf8').write(code)
    return w, done, failed

if __name__ == '__main__':
    main()
