"""Reads the script tables of /repo as text and writes the generated Gallina
tables ScriptData.v, FallBackData.v and GMLists.v.  Nothing of /repo is run:
each table module is parsed with ast and its right-hand sides (literals,
slices of earlier tables, chr() ranges, concatenations) are evaluated here."""
import ast, glob, os, sys
sys.path.insert(0, os.path.dirname(__file__))
import coqlit as cl

REPO = '/repo/aksharamukha'
OUT = '/verif/rocq/theories'

def ev(n, env):
    if isinstance(n, ast.Constant):
        return n.value
    if isinstance(n, ast.List):
        return [ev(x, env) for x in n.elts]
    if isinstance(n, ast.Dict):
        return {ev(k, env): ev(v, env) for k, v in zip(n.keys, n.values)}
    if isinstance(n, ast.UnaryOp) and isinstance(n.op, ast.USub):
        return -ev(n.operand, env)
    if isinstance(n, ast.Name):
        return env[n.id]
    if isinstance(n, ast.BinOp) and isinstance(n.op, ast.Add):
        return ev(n.left, env) + ev(n.right, env)
    if isinstance(n, ast.Subscript):
        v = ev(n.value, env)
        if isinstance(n.slice, ast.Slice):
            f = lambda x: None if x is None else ev(x, env)
            return v[f(n.slice.lower):f(n.slice.upper)]
        return v[ev(n.slice, env)]
    if isinstance(n, ast.ListComp) and len(n.generators) == 1:
        g = n.generators[0]
        r = []
        for x in ev(g.iter, env):
            r.append(ev(n.elt, dict(env, **{g.target.id: x})))
        return r
    if isinstance(n, ast.Call) and isinstance(n.func, ast.Name):
        a = [ev(x, env) for x in n.args]
        if n.func.id == 'chr': return chr(*a)
        if n.func.id == 'range': return list(range(*a))
        if n.func.id == 'dict' : return dict(*a)
    if isinstance(n, ast.Call) and isinstance(n.func, ast.Attribute) and n.func.attr == 'join':
        return ev(n.func.value, env).join(ev(n.args[0], env))
    if isinstance(n, ast.Call) and isinstance(n.func, ast.Attribute) and n.func.attr == 'split':
        return ev(n.func.value, env).split(*[ev(x, env) for x in n.args])
    raise NotImplementedError(ast.dump(n)[:200])

def module(path):
    """attr -> (value, line) for a table module; None if not a table module."""
    t = ast.parse(open(path, encoding='utf8').read())
    env, lines, adds = {}, {}, False
    for st in t.body:
        if isinstance(st, ast.Assign) and isinstance(st.targets[0], ast.Name):
            env[st.targets[0].id] = ev(st.value, env)
            lines[st.targets[0].id] = (st.lineno, st.end_lineno)
        elif isinstance(st, ast.Expr) and 'add_additional_chars' in ast.unparse(st):
            adds = True
    return env, lines, adds

def ident(x):
    return x.replace('-', '_').replace('.', '_')

def scripts():
    out = []
    for d in ['MainIndic', 'EastIndic', 'Roman', 'NonIndic']:
        for f in sorted(glob.glob('%s/ScriptMap/%s/*.py' % (REPO, d))):
            n = os.path.splitext(os.path.basename(f))[0]
            if n in ('__init__', 'SiddhamRanjana', 'kana2roman'):
                continue
            env, lines, adds = module(f)
            env = {k: v for k, v in env.items() if isinstance(v, list)}
            out.append((d, n, env, lines, adds))
    return out

def gen_scripts():
    w = open(OUT + '/ScriptData.v', 'w', encoding='utf8')
    w.write('''(** * Script tables (GENERATED by tools/gen_tables.py; do not edit).

    One definition per module of /repo/aksharamukha/ScriptMap, attribute by
    attribute, before [add_additional_chars] runs.  Slices such as
    [VowelSignMap = VowelMap[1:]] are written out. *)
From Coq Require Import List NArith.
From Verif Require Import PyStr.
Import ListNotations.

Definition table := list (str * list str).
''')
    names = []
    for d, n, env, lines, adds in scripts():
        i = 'S_%s_%s' % (d, ident(n))
        names.append((d, n, i, adds))
        w.write('\n(** aksharamukha/ScriptMap/%s/%s.py:%d-%d *)\n' % (d, n, min(l[0] for l in lines.values()), max(l[1] for l in lines.values())))
        w.write('Definition %s : table :=\n  [' % i)
        w.write(';\n   '.join('(%s, %s)' % (cl.s(k), cl.lst(v)) for k, v in env.items()))
        w.write('].\n')
    w.write('''
(** Module files under aksharamukha/ScriptMap: package directory, module name,
    tables, and whether the module ends with a call of GM.add_additional_chars. *)
Definition raw_modules : list (str * str * table * bool) :=
  [''')
    w.write(';\n   '.join('(%s, %s, %s, %s)' % (cl.s(d), cl.s(n), i, 'true' if adds else 'false') for d, n, i, adds in names))
    w.write('].\n')

def gen_fallback():
    env, lines, _ = module(REPO + '/FallBack.py')
    w = open(OUT + '/FallBackData.v', 'w', encoding='utf8')
    w.write('''(** * Fall-back characters (GENERATED by tools/gen_tables.py; do not edit).

    The dictionaries of /repo/aksharamukha/FallBack.py, in their order.  A
    value is either the character itself or a list such as [4, "x"]. *)
From Coq Require Import List NArith ZArith.
From Verif Require Import PyStr.
Import ListNotations.

Inductive fbval :=
| FChar (s : str)
| FBase (i : Z) (rest : list str).

Definition fbdict := list (str * list (str * fbval)).
''')
    for c, m in ((c, m) for v in env.values() for c, m in v.items()):
        for a, b in m.items():
            assert isinstance(b, list) == (a in ('OthersRev', 'OthersNonRev')), (c, a, b)
    def val(v):
        if isinstance(v, str):
            return 'FChar %s' % cl.s(v)
        assert isinstance(v[0], int) and all(isinstance(x, str) for x in v[1:]), v
        return 'FBase (%d)%%Z %s' % (v[0], cl.lst(v[1:]))
    for k, v in env.items():
        w.write('\n(** aksharamukha/FallBack.py:%d-%d *)\n' % lines[k])
        w.write('Definition FB_%s : fbdict :=\n  [' % k)
        w.write(';\n   '.join('(%s, [%s])' % (cl.s(c), '; '.join('(%s, %s)' % (cl.s(a), val(b)) for a, b in m.items())) for c, m in v.items()))
        w.write('].\n')

def gen_gm():
    t = ast.parse(open(REPO + '/GeneralMap.py', encoding='utf8').read())
    env = {}
    w = open(OUT + '/GMLists.v', 'w', encoding='utf8')
    w.write('''(** * Constants of GeneralMap.py (GENERATED by tools/gen_tables.py; do not edit). *)
From Coq Require Import List NArith.
From Verif Require Import PyStr.
Import ListNotations.
''')
    skipped = []
    for st in t.body:
        if isinstance(st, ast.Assign) and len(st.targets) == 1 and isinstance(st.targets[0], ast.Name):
            k = st.targets[0].id
            try:
                v = ev(st.value, env)
            except Exception as e:
                skipped.append((k, st.lineno, repr(e)[:100])); continue
            env[k] = v
            loc = 'aksharamukha/GeneralMap.py:%d-%d' % (st.lineno, st.end_lineno)
            if isinstance(v, str):
                w.write('\n(** %s *)\nDefinition GM_%s : str := %s.\n' % (loc, k, cl.s(v)))
            elif isinstance(v, list) and all(isinstance(x, str) for x in v):
                w.write('\n(** %s *)\nDefinition GM_%s : list str :=\n  %s.\n' % (loc, k, cl.lst(v)))
            elif isinstance(v, dict) and v and all(isinstance(x, str) for x in v.values()):
                w.write('\n(** %s *)\nDefinition GM_%s : list (str * str) :=\n  [%s].\n' % (loc, k, ';\n   '.join('(%s, %s)' % (cl.s(a), cl.s(b)) for a, b in v.items())))
            elif isinstance(v, dict) and v and all(isinstance(x, list) for x in v.values()):
                w.write('\n(** %s *)\nDefinition GM_%s : list (str * list str) :=\n  [%s].\n' % (loc, k, ';\n   '.join('(%s, %s)' % (cl.s(a), cl.lst(b)) for a, b in v.items())))
            else:
                skipped.append((k, st.lineno, type(v)))
    print('GeneralMap constants not emitted:', skipped)

if __name__ == '__main__':
    gen_scripts(); gen_fallback(); gen_gm()
