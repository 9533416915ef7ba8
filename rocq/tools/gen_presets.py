#!/usr/bin/env python3
"""Generates theories/Ctx.v (the Context record) and theories/Presets.v (its value for each network) from the
constants in /repo (read as text).  The generated files are committed."""
import re, sys
SRC = '/repo/ethereum-consensus/src/'
PRESET_FORKS = ['phase0', 'altair', 'bellatrix', 'capella', 'deneb', 'electra']
NETS = {'mainnet': 'mainnet', 'minimal': 'minimal', 'goerli': 'mainnet', 'sepolia': 'mainnet', 'holesky': 'mainnet', 'hoodi': 'mainnet'}
BYTES = {'GENESIS_FORK_VERSION', 'ALTAIR_FORK_VERSION', 'BELLATRIX_FORK_VERSION', 'CAPELLA_FORK_VERSION',
         'DENEB_FORK_VERSION', 'ELECTRA_FORK_VERSION'}
# fields of Context (state_transition/context.rs:19-149)
ctx_src = open(SRC + 'state_transition/context.rs').read().split('\n')
fields = []
for ln in range(19, 142):
    m = re.match(r'\s*pub ([a-z0-9_]+): ([A-Za-z0-9]+),', ctx_src[ln])
    if m and m.group(2) in ('u64', 'usize', 'Gwei', 'Slot', 'Epoch', 'Version'):
        fields.append((m.group(1).upper(), 'bytes' if m.group(2) == 'Version' else 'N', ln + 1))
def consts(path, base):
    env = dict(base)
    for i, line in enumerate(open(path).read().split('\n')):
        m = re.match(r'pub const ([A-Z0-9_]+): [A-Za-z0-9]+ =\s*(.*);', line)
        if not m: continue
        n, v = m.groups()
        v = re.sub(r'(\d+)(u64|usize)\.pow\((\d+)\)', r'\1**\3', v)
        v = re.sub(r' as (usize|u64|Slot|Epoch)', '', v).replace('_u64', '').replace('_usize', '')
        v = re.sub(r'\[(\d+)u8; (\d+)\]', r'[\1]*\2', v)
        v = re.sub(r'(0x[0-9a-fA-F]+)u8', r'\1', v)
        try: env[n] = (eval(v, {}, {k: x[0] for k, x in env.items()}), f'{path[len(SRC):]}:{i+1}')
        except Exception as e: pass
    return env
which = sys.argv[1]
out = []; w = out.append
if which == 'ctx':
    w('''(** * Ctx: the runtime configuration [Context]   GENERATED by tools/gen_presets.py

    Models struct [Context] (state_transition/context.rs:19-149).  Kept: every integer and version field, in upper
    case.  Dropped: network name, terminal difficulty/hash, deposit contract address, execution engine and KZG handles.
    Simplification: the const-generic parameters of the containers (type-level [SLOTS_PER_HISTORICAL_ROOT],
    [EPOCHS_PER_HISTORICAL_VECTOR], [EPOCHS_PER_SLASHINGS_VECTOR], [SYNC_COMMITTEE_SIZE], ...) are identified with the Context
    fields of the same name; the preset modules instantiate both from one constant. *)
From Verif Require Import Base.

Record Ctx : Type := mkCtx {''')
    w(';\n'.join(f'  {n} : {t} (* context.rs:{l} *)' for n, t, l in fields) + '\n}.')
    open(sys.argv[2], 'w').write('\n'.join(out) + '\n')
else:
    w('''(** * Presets: the values of [Ctx] for the networks shipped with the repository   GENERATED by tools/gen_presets.py

    Each value cites the constant it was read from (files under ethereum-consensus/src). *)
From Verif Require Import Base Ctx.
''')
    for net, base in NETS.items():
        env = {'FAR_FUTURE_EPOCH': (2**64-1, 'primitives.rs'), 'SYNC_COMMITTEE_SUBNET_COUNT': (4, '')}
        for f in PRESET_FORKS:
            env = consts(f'{SRC}{f}/presets/{base}.rs', env)
        env = consts(f'{SRC}configs/{net}.rs', env)
        if net not in ('mainnet', 'minimal'):
            # constants re-exported from the mainnet configuration, if any
            txt = open(f'{SRC}configs/{net}.rs').read()
            m0 = consts(f'{SRC}configs/mainnet.rs', {'FAR_FUTURE_EPOCH': (2**64-1, '')})
            for n, _, _ in fields:
                if n not in env and n in m0: raise SystemExit(f'{net} lacks {n}')
        w(f'Definition ctx_{net} : Ctx := {{|')
        rows = []
        for n, t, _ in fields:
            v, c = env[n]
            sv = ('[' + '; '.join(map(str, v)) + ']') if t == 'bytes' else str(v)
            rows.append(f'  {n} := {sv} (* {c} *)')
        w(';\n'.join(rows) + '\n|}.\n')
    open(sys.argv[2], 'w').write('\n'.join(out) + '\n')
