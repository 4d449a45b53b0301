#!/usr/bin/env python3
"""Compares the model with the expected outputs shipped in aksharamukha/test/test_texts.

Usage: validate.py OUTDIR [JOBS].  Needs a compiled /verif/rocq.  The expected outputs are read as
text; the Python package is not run.  Every case is evaluated with vm_compute and compared with the
expected string; the counts and the differing cases go to OUTDIR/result.txt.
"""
import json, os, re, subprocess, sys
from concurrent.futures import ThreadPoolExecutor

T = '/repo/aksharamukha/test/test_texts/'
OUT = sys.argv[1]
JOBS = int(sys.argv[2]) if len(sys.argv) > 2 else 2
CHUNK = 16

def lit(s): return '[' + ';'.join(hex(ord(c)) for c in s) + ']%N'
def name(s): return '"' + s + '"%u'

HDR = '''From Coq Require Import List NArith ZArith Bool.
From Verif Require Import PyStr Prog Transliterate.
Import ListNotations. Open Scope N_scope.
Fixpoint dif (k : nat) (a b : str) : option (nat * str * str) :=
  match a, b with
  | [], [] => None
  | x :: a', y :: b' => if x =? y then dif (S k) a' b' else Some (k, firstn 12 a, firstn 12 b)
  | _, _ => Some (k, firstn 12 a, firstn 12 b)
  end.
Definition t src tgt nat post txt exp :=
  match snd (process_default (fun _ => None) (fun _ => []) src tgt txt nat post []) with
  | Ok r => match dif 0 r exp with None => None | Some d => Some (inl d) end
  | Err e => Some (inr e)
  end.
'''

tests = []
srcs = {(s, x): open(T + f'source_{s}_{x}.txt', encoding='utf8').read()
        for s in ['Devanagari', 'IAST'] for x in ['heart', 'lalitavistara']}
for f in sorted(os.listdir(T)):
    if f.startswith('test_') and f.endswith('.txt'):
        s, tg, x = f[5:-4].split('_')
        tests.append((x, f, s, tg, 'true', '[]', srcs[s, x], open(T + f, encoding='utf8').read()))
for o, l in json.load(open(T + 'test_postoptions.json', encoding='utf8')).items():
    for tc in l:
        for c in (c for c in tc['cases'] if len(c) > 1):
            tests.append(('postoptions', f'{o} {tc["source"]} {tc["target"]} {c[0][:30]}', tc['source'],
                          tc['target'], 'true', '[' + name(o) + ']', c[0], c[1]))
for o, l in json.load(open(T + 'test_sanity_default.json', encoding='utf8')).items():
    for tc in l:
        nat = 'true' if tc.get('nativize', True) else 'false'
        for c in (c for c in tc['cases'] if len(c) > 1):
            tests.append(('sanity', f'{o} {tc["source"]} {tc["target"]} {c[0][:30]}', tc['source'],
                          tc['target'], nat, '[]', c[0], c[1]))
            if 'reverse' in tc:
                tests.append(('sanity', f'reverse {o} {tc["target"]} {tc["source"]} {c[1][:30]}',
                              tc['target'], tc['source'], nat, '[]', c[1], c[0]))

os.makedirs(OUT, exist_ok=True)
chunks = [list(enumerate(tests))[i:i + CHUNK] for i in range(0, len(tests), CHUNK)]

def go(k):
    fn = f'{OUT}/v{k}.v'
    with open(fn, 'w') as g:
        g.write(HDR)
        for i, (kind, n, s, tg, nat, post, a, b) in chunks[k]:
            g.write(f'Definition r{i} := Eval vm_compute in t {name(s)} {name(tg)} {nat} {post} {lit(a)} {lit(b)}.\nPrint r{i}.\n')
    p = subprocess.run(['coqc', '-Q', '/verif/rocq/theories', 'Verif', fn], capture_output=True, text=True)
    res = {}
    for m in re.finditer(r'^r(\d+) =(.*?)(?=^r\d+ =|\Z)', p.stdout, re.M | re.S):
        body = re.sub(r'\n     : .*', '', m[2], flags=re.S)
        res[int(m[1])] = ' '.join(body.split())
    return res, p.returncode, p.stderr[-300:]

with ThreadPoolExecutor(JOBS) as ex:
    allr = list(ex.map(go, range(len(chunks))))
res = {}
for r, _, _ in allr: res.update(r)
with open(OUT + '/result.txt', 'w') as g:
    for kind in ['heart', 'lalitavistara', 'postoptions', 'sanity']:
        ix = [i for i, t in enumerate(tests) if t[0] == kind]
        ok = [i for i in ix if res.get(i) == 'None']
        miss = [i for i in ix if i not in res]
        g.write(f'{kind}: {len(ix)} cases, {len(ok)} equal, {len(ix)-len(ok)-len(miss)} differ, {len(miss)} not evaluated\n')
        for i in ix:
            if i in miss: g.write(f'  not evaluated: {tests[i][1]}\n')
            elif res[i] != 'None': g.write(f'  differs: {tests[i][1]}: {res[i]}\n')
    for r, c, e in allr:
        if c: g.write(f'coqc failed: {e}\n')
print(open(OUT + '/result.txt').read())
