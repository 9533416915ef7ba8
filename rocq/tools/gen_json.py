#!/usr/bin/env python3
"""Extract the serde-derived containers of /repo into rocq/theories/JsonTable.v (run by hand; the output is committed)."""
import re, glob, os, sys
REPO = '/repo/'
ROOTS = [('ethereum-consensus/src/', ''), ('beacon-api-client/src/', 'api_')]
FORKS = ['phase0', 'altair', 'bellatrix', 'capella', 'deneb', 'electra']
U64 = '2 ^ 64'
INTS = {t: U64 for t in 'u64 usize Slot Epoch Gwei ValidatorIndex CommitteeIndex WithdrawalIndex BlobIndex ChainId NetworkId'.split()}
INTS.update({'u8': '256', 'ParticipationFlags': '256', 'U256': '2 ^ 256'})
HEX = {'Root': 32, 'Node': 32, 'Bytes32': 32, 'Hash32': 32, 'ExecutionAddress': 20, 'BlsPublicKey': 48, 'BlsSignature': 96, 'KzgCommitment': 48, 'KzgProof': 48}
ATTR = r'(?:#\[(?:[^\[\]]|\[[^\]]*\])*\]\s*)'
structs = {}; skipped = []
def size(s):
    s = s.strip()
    return f'(Lit {s})' if s.isdigit() else f'(Const "{s}")'
def split_args(s):
    out, d, cur = [], 0, ''
    for c in s:
        if c == '<': d += 1
        if c == '>': d -= 1
        if c == ',' and d == 0: out.append(cur); cur = ''
        else: cur += c
    if cur.strip(): out.append(cur)
    return [x.strip() for x in out]
for root, pre in ROOTS:
    for p in sorted(glob.glob(REPO + root + '**/*.rs', recursive=True)):
        if '/bin/' in p: continue
        raw = open(p).read(); src = raw.split('#[cfg(test)]\nmod')[0]
        mod = p[len(REPO + root):].split('/')[0].replace('.rs', '')
        for m in re.finditer('(' + ATTR + r'+)pub(?:\(crate\))? struct (\w+)(<[^{;(]*>)?\s*\{(.*?)\n\}', src, re.S):
            attrs, name, gen, body = m.groups()
            if not re.search(r'(?<!Simple)\bSerialize\b', attrs): continue
            l0 = src[:m.start(2)].count('\n') + 1; l1 = src[:m.end()].count('\n') + 1
            body = re.sub(r'//[^\n]*', '', body)
            fs = [(a, f, re.sub(r'\s+', '', t)) for a, f, t in re.findall('(' + ATTR + r'*)(?:pub(?:\(\w+\))? )?(\w+):\s*((?:[^,<]|<[^<>]*(?:<[^<>]*>[^<>]*)*>)+),', body)]
            key = (pre + mod, name); structs[key] = (p[len(REPO):], l0, l1, fs, src)
class Skip(Exception): pass
def find(mod, name, src):
    if (mod, name) in structs: return (mod, name)
    base = mod[4:] if mod.startswith('api_') else mod
    # explicit import: use crate::{.. fork::..::{.. name ..}}
    uses = ' '.join(re.findall(r'use [^;]*;', src))
    start = base if base in FORKS else None
    m = [f for f in FORKS if re.search(r'\b' + f + r'::(?:\w+::)*(?:\{[^{}]*\b' + name + r'\b|' + name + r'\b)', uses)]
    if m: start = m[-1]
    if start is None:
        c = [k for k in structs if k[1] == name]
        if len(c) == 1: return c[0]
        raise Skip(f'ambiguous {name}')
    for f in reversed(FORKS[:FORKS.index(start) + 1]):
        if (f, name) in structs: return (f, name)
    c = [k for k in structs if k[1] == name]
    if len(c) == 1: return c[0]
    raise Skip(f'unknown {name}')
def ident(k): return 'j_' + '_'.join(k)
def ty(k, t, a, deps):
    mod, src = k[0], structs[k][4]
    h = re.match(r'(\w+)(?:<(.*)>)?$', t)
    if not h: raise Skip('type ' + t)
    n, args = h.group(1), split_args(h.group(2)) if h.group(2) else []
    w = re.search(r'with = "[\w:]*::(\w+)"', a); w = w.group(1) if w else None
    if n in INTS: return f'TText ({INTS[n]})' if w == 'as_str' else f'TNum ({INTS[n]})'
    if w == 'as_str': raise Skip(f'as_str on {t}')
    if n in ('List', 'Vector', 'Vec'):
        ln = 'AnyLen' if n == 'Vec' else f"{'AtMost' if n == 'List' else 'Exactly'} {size(args[1])}"
        if w == 'seq_of_str': return f'TTextSeq ({ln}) ({INTS[args[0]]})'
        return f'TSeq ({ln}) ({ty(k, args[0], "", deps)})'
    if w == 'seq_of_str': raise Skip('seq_of_str on ' + t)
    if n == 'Version':
        return 'THex (Exactly (Lit 4))' if w == 'as_hex' else 'TSeq (Exactly (Lit 4)) (TNum 256)'
    if n in HEX: return f'THex (Exactly (Lit {HEX[n]}))'
    if n in ('ByteVector', 'Blob'): return f'THex (Exactly {size(args[0])})'
    if n in ('ByteList', 'Transaction'): return f'THex (AtMost {size(args[0])})'
    if n == 'Bitvector': return f'TBits (Exactly {size(args[0])})'
    if n == 'Bitlist': return f'TBits (AtMost {size(args[0])})'
    if n == 'bool': return 'TBool'
    d = find(mod, n, src); deps.append(d); return ident(d)
done = {}
def visit(k):
    if k in done: return
    done[k] = None
    p, l0, l1, fs, src = structs[k]
    try:
        deps, out = [], []
        for a, f, t in fs:
            if re.search(r'flatten|skip_serializing_if|serialize_with', a): raise Skip(re.sub(r'\s+', ' ', a.strip()))
            r = re.search(r'rename = "(\w+)"', a); out.append((r.group(1) if r else f, ty(k, t, a, deps)))
        for d in deps:
            visit(d)
            if done[d] is None: raise Skip('uses ' + ident(d))
        done[k] = f'(** {p}:{l0}-{l1} *)\nDefinition {ident(k)} : Ty := TRec [\n' + ';\n'.join(f'  ("{key}", {s})' for key, s in out) + '].\n'
        order.append(k)
    except Skip as e: skipped.append((ident(k), p, l0, str(e)))
order = []
for k in structs: visit(k)
o = ['(** * The containers with derived JSON text, one definition each',
     '',
     '    Generated by rocq/tools/gen_json.py from the struct definitions cited: the keys are the field names after [#[serde(rename)]], in order of declaration;',
     '    the type of a field records the serde attribute it carries. Not in the table, because their decoders are written by hand or use [flatten] or optional',
     '    fields: ' + ', '.join(sorted(s[0][2:] for s in skipped)) + '. *)',
     'From Coq Require Import String.', 'From Verif Require Import Base JsonCodec.', 'Local Open Scope string_scope.', 'Local Open Scope N_scope.', '']
o += [done[k] for k in order]
o += ['Definition containers : list (string * Ty) := [', ';\n'.join(f'  ("{ident(k)[2:]}", {ident(k)})' for k in order) + '].']
open('/verif/rocq/theories/JsonTable.v', 'w').write('\n'.join(o) + '\n')
for s in skipped: print('skipped', *s)
print(len(order), 'containers')
