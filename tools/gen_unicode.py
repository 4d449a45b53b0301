"""Writes UnicodeTables.v from CPython's own Unicode tables (unicodedata, str
methods).  These are facts about CPython, not about /repo."""
import unicodedata as ud
OUT = '/verif/rocq/theories'
ALL = [chr(c) for c in range(0x110000) if not 0xd800 <= c < 0xe000]

def ranges(p):
    out, st, prev = [], None, None
    for c in range(0x110000):
        if p(chr(c)):
            if st is None: st = c
        elif st is not None:
            out.append((st, c - 1)); st = None
    if st is not None: out.append((st, 0x10ffff))
    return out

def rows(items, per=6):
    return ';\n   '.join('; '.join(items[i:i + per]) for i in range(0, len(items), per))

w = open(OUT + '/UnicodeTables.v', 'w')
w.write('''(** * Unicode character tables (GENERATED by tools/gen_unicode.py; do not edit).

    CPython's own tables, Unicode %s: [str.isspace], [str.isdecimal],
    [str.isalnum], [str.lower], [str.upper], and unicodedata's canonical
    decomposition, combining class and composition data.  They stand for
    CPython data, not for code in /repo. *)
From Coq Require Import List NArith.
Import ListNotations.
Open Scope N_scope.
''' % ud.unidata_version)
for n, p in [('space_ranges', str.isspace), ('digit_ranges', str.isdecimal), ('alnum_ranges', str.isalnum),
             ('letter_ranges', lambda c: ud.category(c)[0] == 'L'), ('mark_ranges', lambda c: ud.category(c)[0] == 'M')]:
    r = ranges(p)
    w.write('\nDefinition %s : list (N * N) :=\n  [%s].\n' % (n, rows(['(%d, %d)' % x for x in r])))
for n, f in [('lower_table', str.lower), ('upper_table', str.upper)]:
    t = [(c, f(c)) for c in ALL if f(c) != c]
    w.write('\nDefinition %s : list (N * list N) :=\n  [%s].\n' % (n, rows(['(%d, [%s])' % (ord(a), '; '.join(str(ord(x)) for x in b)) for a, b in t])))
hangul = lambda c: 0xAC00 <= ord(c) <= 0xD7A3
dec = [(c, ud.normalize('NFD', c)) for c in ALL if not hangul(c) and ud.normalize('NFD', c) != c]
w.write('\nDefinition decomp_table : list (N * list N) :=\n  [%s].\n' % rows(['(%d, [%s])' % (ord(a), '; '.join(str(ord(x)) for x in b)) for a, b in dec]))
ccc = [(c, ud.combining(c)) for c in ALL if ud.combining(c)]
w.write('\nDefinition ccc_table : list (N * N) :=\n  [%s].\n' % rows(['(%d, %d)' % (ord(a), b) for a, b in ccc], 10))
comp = {}
for c in ALL:
    d = ud.decomposition(c)
    if d and not d.startswith('<') and len(d.split()) == 2:
        a, b = [int(x, 16) for x in d.split()]
        if ud.normalize('NFC', chr(a) + chr(b)) == c:
            comp.setdefault(a, []).append((b, ord(c)))
w.write('\nDefinition comp_table : list (N * list (N * N)) :=\n  [%s].\n' % ';\n   '.join('(%d, [%s])' % (a, '; '.join('(%d, %d)' % x for x in l)) for a, l in sorted(comp.items())))
