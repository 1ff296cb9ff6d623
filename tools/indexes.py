#!/usr/bin/env python3
"""Transcribe the constants and tables of handlers.rs, stats.rs and trace.rs into rocq/theories/Indexes.v.
usage: indexes.py /repo/src/execution OUT"""
import re, sys
src, out = sys.argv[1], sys.argv[2]
H = open(src + '/handlers.rs').read().split('\n')
consts = []
for n, l in enumerate(H, 1):
    m = re.match(r'pub const HANDLER_IDX_(\w+): usize = (0x[0-9A-Fa-f]+);', l)
    if m: consts.append((n, m.group(1), m.group(2)))
o = ['''(** The handler indexes (src/execution/handlers.rs %d-%d), the table from them to handler functions
    ([select_handler]) and the tables from them to instruction names (src/execution/stats.rs,
    src/execution/trace.rs, [get_instruction_name]).  Transcribed by tools/indexes.py; a handler is
    represented by the name of its function. *)
From Coq Require Import String ZArith List.
Import ListNotations.
Local Open Scope string_scope. Local Open Scope Z_scope.
''' % (consts[0][0], consts[-1][0])]
for n, k, v in consts: o.append('Definition IX_%s : Z := %s. (* handlers.rs %d *)' % (k, v, n))
o.append('''
(** a [match] over constants, first arm first *)
Fixpoint arm {A} (d : A) (x : Z) (l : list (list Z * A)) : A :=
  match l with [] => d | (ks, a) :: l => if existsb (Z.eqb x) ks then a else arm d x l end.
''')
# select_handler
i = next(n for n, l in enumerate(H) if 'pub fn select_handler' in l)
fam, tables, single, cur = None, [], [], None
for n in range(i, len(H)):
    l = H[n].strip()
    m = re.match(r'ProcessedInstr::(\w+) \{ handler_index, \.\. \} => match', l)
    if m: cur = (m.group(1), n + 1, []); tables.append(cur); continue
    m = re.match(r'((?:HANDLER_IDX_\w+)(?: \| HANDLER_IDX_\w+)*) => (?:r#)?(\w+),', l)
    if m and cur: cur[2].append((re.findall(r'HANDLER_IDX_(\w+)', m.group(1)), m.group(2))); continue
    m = re.match(r'_ => (\w+),', l)
    if m: assert m.group(1) == 'invalid'; cur = None; continue
    if l == '}' and H[n].startswith('}'): break
o.append('(** handlers.rs %d-%d: the arms of [select_handler] with an index, one table for each variant of [ProcessedInstr] *)' % (i + 1, n + 1))
o.append('Inductive family := ' + ' | '.join(t[0] for t in tables) + '.')
o.append('Definition select_handler (f : family) (x : Z) : string :=\n  match f with')
for t in tables:
    o.append('  | %s => arm "invalid" x (* %d *)\n    [%s]' % (t[0], t[1], ';\n     '.join('([%s], "%s")' % ('; '.join('IX_' + k for k in ks), h) for ks, h in t[2])))
o.append('  end.')
for f, dflt in (('stats', 'invalid_handler'), ('trace', 'unknown')):
    T = open(src + '/%s.rs' % f).read().split('\n')
    i = next(n for n, l in enumerate(T) if 'fn get_instruction_name' in l)
    rows, acc = [], []
    for n in range(i, len(T)):
        l = T[n].split('//')[0].strip()
        if T[n].startswith('    }') and not T[n].startswith('     '): break
        acc += re.findall(r'HANDLER_IDX_(\w+)', l)
        m = re.search(r'(0x[0-9A-F]+)\.\.=(0x[0-9A-F]+) => "(\w+)"', l)
        if m: rows.append(('R', m.group(1), m.group(2), m.group(3))); continue
        m = re.search(r'=> "([^"]*)"', l)
        if m:
            if l.startswith('_'): assert m.group(1) == dflt, (f, l)
            else: rows.append(('A', acc, m.group(1)))
            acc = []
    arms = [r for r in rows if r[0] == 'A']; rng = [r for r in rows if r[0] == 'R']
    assert rows == arms + rng
    o.append('(** %s.rs %d-%d *)' % (f, i + 1, n + 1))
    d = '"%s"' % dflt
    for r in reversed(rng): d = '(if (%s <=? x) && (x <=? %s) then "%s" else %s)%%bool' % (r[1], r[2], r[3], d)
    o.append('Definition %s_name (x : Z) : string := arm\n  %s x\n  [%s].' % (f, d, ';\n   '.join('([%s], "%s")' % ('; '.join('IX_' + k for k in r[1]), r[2]) for r in arms)))
open(out, 'w').write('\n'.join(o) + '\n')
