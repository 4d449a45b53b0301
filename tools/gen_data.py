"""Writes GimelData.v (json/gimeltra_data.json) and YamlData.v (the fields of
the two YAML files that transliterate.py reads).  The YAML files are block
mappings of plain scalars; duplicate keys keep the last value, as in PyYAML."""
import json, re, os, sys
sys.path.insert(0, os.path.dirname(os.path.abspath(__file__)))
import coqlit as cl
REPO = '/repo/aksharamukha'
OUT = '/verif/rocq/theories'

def pairs(d): return '[%s]' % ';\n     '.join('(%s, %s)' % (cl.s(a), cl.s(b)) for a, b in d.items())

d = json.load(open(REPO + '/json/gimeltra_data.json', encoding='utf8'))
w = open(OUT + '/GimelData.v', 'w', encoding='utf8')
w.write('''(** * json/gimeltra_data.json (GENERATED by tools/gen_data.py; do not edit). *)
From Coq Require Import List NArith.
From Verif Require Import PyStr.
Import ListNotations.

''')
w.write('(** aksharamukha/json/gimeltra_data.json, "ssub": db[from][to] *)\nDefinition gimel_ssub : list (str * list (str * list (str * str))) :=\n  [%s].\n\n' %
  ';\n   '.join('(%s, [%s])' % (cl.s(a), ';\n    '.join('(%s, %s)' % (cl.s(b), pairs(x)) for b, x in y.items())) for a, y in d['ssub'].items()))
for n, t in [('ccmp', d['ccmp']), ('fina', d['fina']), ('liga', d['liga'])]:
    w.write('(** "%s" *)\nDefinition gimel_%s : list (str * list (str * str)) :=\n  [%s].\n\n' % (n, n, ';\n   '.join('(%s, %s)' % (cl.s(a), pairs(x)) for a, x in t.items())))
w.write('(** "simp"."general" *)\nDefinition gimel_simplify : list (str * str) :=\n  %s.\n' % pairs(d['simp']['general']))
w.close()

scal = lambda v: v.strip().strip('"')
scripts = {}; cur = None
for line in open(REPO + '/yaml/aksharamukha-scripts.yaml', encoding='utf8'):
    line = line.rstrip('\n')
    if re.match(r'^[^\s#].*:$', line): cur = scripts[line[:-1]] = {}
    elif re.match(r'^  [a-z]', line):
        k, v = line.strip().split(':', 1); cur[k] = scal(v)
wiki = {}; lang = None
for line in open(REPO + '/yaml/wikitra2-data.yaml', encoding='utf8'):
    line = line.rstrip('\n')
    if re.match(r'^[^\s#].*:$', line): cur = wiki[line[:-1]] = {}
    elif re.match(r'^    [^ ]', line): lang = line.strip()[:-1]; cur[lang] = None
    elif line.startswith('        population:'): cur[lang] = int(line.split(':')[1])
for k in list(scripts) + list(wiki) + [l for x in wiki.values() for l in x] + [x.get('lang', '') for x in scripts.values()] + [x['script'] for x in scripts.values()]:
    assert k.lower() not in ('yes', 'no', 'on', 'off', 'true', 'false', 'null', '~', 'y', 'n') and not re.match(r'^[\d.+-]+$', k), k
assert all(p is not None for x in wiki.values() for p in x.values())
w = open(OUT + '/YamlData.v', 'w', encoding='utf8')
w.write('''(** * The YAML tables (GENERATED by tools/gen_data.py; do not edit). *)
From Coq Require Import List NArith ZArith.
From Verif Require Import PyStr.
Import ListNotations.

(** One entry of aksharamukha/yaml/aksharamukha-scripts.yaml: the fields that
    transliterate.py reads. *)
Record yscript := YScript { y_script : str; y_lang : option str; y_font_hack : bool }.

(** aksharamukha/yaml/aksharamukha-scripts.yaml *)
Definition yaml_scripts : list (str * yscript) :=
  [%s].

(** aksharamukha/yaml/wikitra2-data.yaml: script tag -> language tag -> population *)
Definition yaml_wiki : list (str * list (str * Z)) :=
  [%s].
''' % (';\n   '.join('(%s, YScript %s %s %s)' % (cl.s(k), cl.s(x['script']), '(Some %s)' % cl.s(x['lang']) if 'lang' in x else 'None', 'true' if 'font_hack' in x else 'false') for k, x in scripts.items()),
       ';\n   '.join('(%s, [%s])' % (cl.s(k), '; '.join('(%s, %d%%Z)' % (cl.s(l), p) for l, p in x.items())) for k, x in wiki.items())))
print(len(scripts), len(wiki))
