#!/usr/bin/env python3
"""Generates theories/AccessTable.v, the accessors of the fork-generic types, from ethereum-consensus/src/types/*.rs."""
import re, sys
D = '/repo/ethereum-consensus/src/'
FILES = [('beacon_state', 'BeaconState', 'KState'), ('beacon_block_body', 'BeaconBlockBody', 'KBody'), ('beacon_block', 'BeaconBlock', 'KBlock'),
         ('signed_beacon_block', 'SignedBeaconBlock', 'KSignedBlock'), ('execution_payload', 'ExecutionPayload', 'KPayload'),
         ('execution_payload_header', 'ExecutionPayloadHeader', 'KHeader'), ('blinded_beacon_block_body', 'BlindedBeaconBlockBody', 'KBlindedBody'),
         ('blinded_beacon_block', 'BlindedBeaconBlock', 'KBlindedBlock'), ('signed_blinded_beacon_block', 'SignedBlindedBeaconBlock', 'KSignedBlindedBlock')]
VIEW = {'': 'Owned', 'Ref': 'Shared', 'RefMut': 'Exclusive'}
def answer(e):
    e = ' '.join(e.split())
    if e == 'None': return 'Nothing'
    if e == 'Some(inner)': return 'Whole'
    m = re.fullmatch(r'Version::(\w+)', e)
    if m: return f'Version {m.group(1)}'
    m = re.fullmatch(r'(?:Some\()?(From::from\()?(?:&mut |&)?inner\.(\w+)\)*', e)
    assert m, e
    return ('Wrapped ' if m.group(1) else 'Part ') + f'"{m.group(2)}"'
out = []; froms = []
for (f, ty, k) in FILES:
    s = open(f'{D}types/{f}.rs').read()
    for b in re.finditer(r'(?ms)^impl<.*?^\}\n', s):
        blk = b.group(0); base = s[:b.start()].count('\n') + 1
        head = re.split(r'(?m)\n\s*(?:pub )?fn ', blk, 1)[0]
        m = re.search(r'\b' + ty + r'(RefMut|Ref)?<', head.split(' for ')[-1].split('\n    for ')[-1])
        view = VIEW[m.group(1) or '']
        if 'Deserialize<' in head: continue
        if 'From<' in head:
            m = re.search(r"fn from\(\s*value: &'a (?:mut )?(\w+)::\w+<.*?Self::(\w+)\(value\)", blk, re.S)
            froms.append((k, view, m.group(1).capitalize(), m.group(2), base)); continue
        for m in re.finditer(r'pub fn (\w+)\(\s*(&self|&mut self),?\s*\)(.*?)\n    \}\n', blk, re.S):
            name, recv, rest = m.groups()
            body = re.search(r'match self \{\n(.*)\n        \}', rest, re.S).group(1)
            arms = []
            for a in re.finditer(r'(?:Self::(\w+)\((\w+)\)|(_)) => (?:\{\s*(.*?)\s*\}\n|(.*?),(?:\n|$))', body + '\n', re.S):
                v, binder, wild, e1, e2 = a.groups()
                e = (e1 or e2).strip()
                assert binder in ('inner', '_', None), binder
                arms.append(('None' if wild else f'Some {v}', answer(e)))
            line = base + blk[:m.start()].count('\n')
            out.append((k, view, name, recv == '&mut self', line, arms))
w = ['(** * Accessors of the fork-generic types (generated by tools/gen_accessors.py from ethereum-consensus/src/types; do not edit)', '',
     '    One row per [pub fn] of the three enums [X], [XRef] and [XRefMut] of each file: name, does it take [&mut self], and the arms of its [match self]',
     '    in order, a pattern ([None] is [_]) with what the arm returns. The comment is the line of the function. *)',
     'From Coq Require Import String.', 'From Verif Require Import Base Types Json Access.', 'Local Open Scope string_scope.', '']
for (f, ty, k) in FILES:
    for view in ('Owned', 'Shared', 'Exclusive'):
        rows = [r for r in out if r[0] == k and r[1] == view]
        if not rows: continue
        w.append(f'(** types/{f}.rs, {ty}{dict((v, x) for x, v in VIEW.items())[view]} *)')
        w.append(f'Definition {k}_{view} : list row := [')
        w.append(';\n'.join(f'  (* {l} *) mkRow "{n}" {str(mu).lower()} [' + '; '.join(f'({p}, {a})' for p, a in arms) + ']' for (_, _, n, mu, l, arms) in rows) + '].')
w += ['', '(** the accessors of an enum; the two signed types have no reference enums *)', 'Definition rows (c : container_kind) (w : view) : list row :=', '  match c, w with']
for (f, ty, k) in FILES:
    for view in ('Owned', 'Shared', 'Exclusive'):
        if any(r[0] == k and r[1] == view for r in out): w.append(f'  | {k}, {view} => {k}_{view}')
w += ['  | _, _ => []', '  end.', '',
      '(** [From<&phase0::X> for XRef] and the like: the fork whose type is converted, and the variant it becomes *)',
      'Definition conversions (c : container_kind) (w : view) : list (Fork * Fork) :=', '  match c, w with']
for (f, ty, k) in FILES:
    for view in ('Shared', 'Exclusive'):
        fr = [x for x in froms if x[0] == k and x[1] == view]
        if fr: w.append(f'  | {k}, {view} => [' + '; '.join(f'({a}, {b})' for _, _, a, b, _ in fr) + f'] (* types/{f}.rs:' + ', '.join(str(x[4]) for x in fr) + ' *)')
w += ['  | _, _ => []', '  end.', '']
open('/verif/rocq/theories/AccessTable.v', 'w').write('\n'.join(w))
print(len(out), 'accessors', len(froms), 'conversions')
