#!/usr/bin/env python3
"""A compiled program as a term: program.py REPO FILE.wasm NAME >> OUT.v  writes [Definition NAME : list payload]."""
import os, sys
src = open(os.path.join(os.path.dirname(os.path.abspath(__file__)), 'conform.py')).read()
exec(src[:src.rindex('main()')])
m = Mod(open(sys.argv[2], 'rb').read()).out
print('Definition %s : list payload :=\n  [ %s ].' % (sys.argv[3], ';\n    '.join(m)))
