#!/bin/bash
# Print Assumptions for every theorem named in MANIFEST.json (run after building /verif/rocq).
cd "$(dirname "$0")/../rocq" && python3 - > /tmp/assumptions.v <<'P'
import json,glob,re,os
names={}
for f in sorted(glob.glob('theories/Properties_*.v')):
    for n in re.findall(r'^(?:Theorem|Example|Corollary|Lemma) (\w+)',open(f).read(),re.M): names[n]=os.path.basename(f)[:-2]
print("From Verif Require "+" ".join(sorted(set(names.values())))+".")
for c in json.load(open('../MANIFEST.json'))['claims']:
    for t in c['theorems']: print(f'Print Assumptions Verif.{names[t]}.{t}.')
P
coqc -Q theories Verif /tmp/assumptions.v | sort | uniq -c
