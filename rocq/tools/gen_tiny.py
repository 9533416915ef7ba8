#!/usr/bin/env python3
"""Write ToyCtx.v: the minimal preset shrunk further, so that examples are cheap for the kernel checker."""
import re, sys
src = open(sys.argv[1]).read()
m = re.search(r'Definition ctx_minimal : Ctx := \{\|(.*?)\|\}\.', src, re.S)
body = re.sub(r'\s*\(\*.*?\*\)', '', m.group(1))
tiny = dict(SLOTS_PER_EPOCH=4, SLOTS_PER_HISTORICAL_ROOT=16, EPOCHS_PER_HISTORICAL_VECTOR=8, EPOCHS_PER_SLASHINGS_VECTOR=8,
            SYNC_COMMITTEE_SIZE=4, SHUFFLE_ROUND_COUNT=2, SHARD_COMMITTEE_PERIOD=3, EPOCHS_PER_SYNC_COMMITTEE_PERIOD=2,
            ALTAIR_FORK_EPOCH=1, BELLATRIX_FORK_EPOCH=2, CAPELLA_FORK_EPOCH=3, DENEB_FORK_EPOCH=4, ELECTRA_FORK_EPOCH=5)
# two slots to an epoch, one committee to a slot: for examples that need several epochs
pair = dict(tiny, SLOTS_PER_EPOCH=2, SLOTS_PER_HISTORICAL_ROOT=16, EPOCHS_PER_SLASHINGS_VECTOR=2, SHUFFLE_ROUND_COUNT=1)
def shrunk(over):
    out = body
    for k, v in over.items():
        out, n = re.subn(r'(\b%s := )[^;]+(;?)' % k, r'\g<1>%d\g<2>' % v, out)
        assert n == 1, (k, n)
    return out
open(sys.argv[2], 'w').write('''(** * A configuration for examples only: the minimal preset with still smaller vectors and consecutive forks

    Generated by tools/gen_tiny.py from Presets.v. *)
From Verif Require Import Base Types Ctx.

Definition ctx_tiny : Ctx := {|%s|}.
''' % shrunk(tiny))
open(sys.argv[3], 'w').write('''(** * A configuration for examples over several epochs: two slots to an epoch

    Generated by tools/gen_tiny.py from Presets.v. *)
From Verif Require Import Base Types Ctx.

Definition ctx_pair : Ctx := {|%s|}.
''' % shrunk(pair))
