#!/usr/bin/env python3
"""The model represents the generated <fork>/spec/mod.rs files by the functions they were generated from. This script checks that this is
right: every function of a generated file has the body of the latest definition of that name at or before the fork (up to white space,
generic arguments, module paths and the semicolon after a final return), and every function that a generated file re-exports from an
earlier fork has no later definition. Usage: check_generated.py [path of ethereum-consensus/src]"""
import re, glob, sys
root = sys.argv[1] if len(sys.argv) > 1 else '/repo/ethereum-consensus/src'
forks = ['phase0', 'altair', 'bellatrix', 'capella', 'deneb', 'electra']
mods = 'crate|super|self|' + '|'.join(forks) + '|spec|helpers|block_processing|epoch_processing|slot_processing|state_transition|genesis'

def fns(text):
    text = re.sub(r'//[^\n]*', '', text); text = re.sub(r'/\*.*?\*/', '', text, flags=re.S); out = {}
    for m in re.finditer(r'^(?:pub(?:\([a-z]+\))? )?fn (\w+)', text, re.M):
        i = k = text.index('{', m.end()); d = 0
        while True:
            d += {'{': 1, '}': -1}.get(text[k], 0); k += 1
            if d == 0: break
        out[m.group(1)] = text[i:k]
    return out

def norm(s):
    s = re.sub(r'\s+', '', s)
    for _ in range(4): s = re.sub(r'(::)?<[A-Z0-9_,]*>', '', s)
    for _ in range(4): s = re.sub(r'\b(' + mods + r')::', '', s)
    s = s.replace(',)', ')').replace(',>', '>').replace(',}', '}').replace(',]', ']')
    return s.replace(';}', '}')

def leaves(s, pre=()):
    """the paths of a use tree"""
    out = []; d = 0; cur = ''
    for c in s + ',':
        if c == ',' and d == 0:
            if cur:
                h, br, rest = cur.partition('{'); seg = tuple(x for x in h.split('::') if x)
                out += leaves(rest[:-1], pre + seg) if br else [pre + seg]
            cur = ''
        else:
            d += {'{': 1, '}': -1}.get(c, 0); cur += c
    return out

orig = {f: {n: (p, b) for p in glob.glob(f'{root}/{f}/*.rs') for n, b in fns(open(p).read()).items()} for f in forks}
bad = copies = reexports = 0
for i, f in enumerate(forks):
    text = open(f'{root}/{f}/spec/mod.rs').read()
    for n, b in fns(text).items():
        src = next((g for g in reversed(forks[:i + 1]) if n in orig[g]), None); copies += 1
        if src is None or norm(orig[src][n][1]) != norm(b): bad += 1; print('differs:', f, n, src)
    flat = re.sub(r'\s+', '', re.sub(r'//[^\n]*', '', text).replace('pub use', 'pub_use '))
    for m in re.finditer(r'pub_use([^;]*);', flat):
        for path in leaves(m.group(1)):
            g = next((x for x in path if x in forks), f); n = path[-1]
            src = next((h for h in reversed(forks[:i + 1]) if n in orig[h]), None)
            if src is None: continue
            reexports += 1
            if src != g: bad += 1; print('re-exported from', g, 'but defined in', src, ':', f, n)
print(copies, 'generated functions,', reexports, 're-exported functions,', bad, 'differences')
