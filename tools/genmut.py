#!/usr/bin/env python3
"""Generates small syntactic mutants of the model's definitions: genmut.py THEORIES SEED FILE:COUNT ... > MUTANTS.json"""
import sys, re, json, random
T, seed = sys.argv[1], int(sys.argv[2])
R = [(r'<=\?', ['<?']), (r'<\?', ['<=?']), (r'(?<![<>])=\?', ['<=?']),
     (r'\bNat\.ltb\b', ['Nat.leb']), (r'\bNat\.leb\b', ['Nat.ltb']), (r'\bNat\.eqb\b', ['Nat.leb']),
     (r'(?<![\w.\'])\d+(?![\w\'])', ['+1', '-1']), (r'\bS pc\b', ['pc']), (r'\bpc\b', ['(S pc)']),
     (r'\btrue\b', ['false']), (r'\bfalse\b', ['true']), (r'&&', ['||']), (r'\|\|', ['&&']),
     (r' \+ ', [' - ']), (r'(?<= )- ', ['+ ']), (r'\brev\b', ['']), (r'\bnegb\b', ['']),
     (r'\bTI32\b', ['TI64']), (r'\bCI32\b', ['CI64']), (r'\bCRef\b', ['CI64']), (r'\bCI64\b', ['CI32']),
     (r'\bfst\b', ['snd']), (r'\bsnd\b', ['fst']), (r'\bsigned\b', ['unsigned']), (r'\bunsigned\b', ['signed']),
     (r'\bcast_u\b', ['cast_s']), (r'\bcast_s\b', ['cast_u']), (r'\bTrap \w+', ['UB']), (r'\bUB\b', ['Trap THost']),
     (r'\btl\b', ['']), (r'\bZ\.max\b', ['Z.min']), (r'\bZ\.min\b', ['Z.max']), (r'\bNat\.max\b', ['Nat.min']), (r'\bNat\.min\b', ['Nat.max']),
     (r'\bSome (?=\w|\()', []), (r'\bmax\b', ['min']), (r'\bmin\b', ['max']), (r'\bHoErr\b', ['HoExit 0']),
     (r'\bdepth\b', ['(S depth)']), (r'\bl_ret\b', ['l_ip']), (r'\bl_ip\b', ['l_ret']), (r'\blp\b', ['(negb lp)']),
     (r'\b(fn|src|dst|tgt|ps|rs|cur|v1|v2|off|len|n|i|d|a|b|k|v|x|y|t|p|q|r|s)\b', [])]
rnd = random.Random(seed); out = []
for fc in sys.argv[3:]:
    f, c = fc.split(':'); c = int(c); txt = open('%s/%s' % (T, f)).read()
    # blank out comments
    buf = list(txt); dep = 0; i = 0
    while i < len(txt):
        if txt.startswith('(*', i): dep += 1; buf[i] = buf[i+1] = ' '; i += 2; continue
        if txt.startswith('*)', i) and dep: dep -= 1; buf[i] = buf[i+1] = ' '; i += 2; continue
        if dep and buf[i] != '\n': buf[i] = ' '
        i += 1
    clean = ''.join(buf)
    # spans of definitions
    spans = []
    for m in re.finditer(r'^(?:Definition|Fixpoint)\s+(\S+).*?:=(.*?)\.(?=\s*\n|\s*$)', clean, re.M | re.S):
        spans.append((m.start(2), m.end(2)))
    cands = []
    for a, b in spans:
        for pat, reps in R:
            for m in re.finditer(pat, clean[a:b]):
                for r in reps:
                    old = m[0]; new = r
                    if r == '+1': new = str(int(old) + 1)
                    if r == '-1':
                        if int(old) == 0: continue
                        new = str(int(old) - 1)
                    cands.append((a + m.start(), old, new))
    rnd.shuffle(cands)
    for pos, old, new in cands[:c]:
        # widen so that the edit is readable
        ls = txt.rfind('\n', 0, pos) + 1; le = txt.find('\n', pos); le = len(txt) if le < 0 else le
        o = txt[ls:le]; n = txt[ls:pos] + new + txt[pos+len(old):le]
        out.append(dict(file=f, old=o, new=n, pos=ls, claim=''))
json.dump(out, sys.stdout, indent=0)
