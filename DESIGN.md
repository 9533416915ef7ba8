# Formal model of ralexstokes/ethereum-consensus in Rocq (Coq 8.16.1)

This file says what is modelled, how each property is stated and proved, and what is trusted.
It is updated as the model grows; `MANIFEST.json` holds the exact theorem names.

## 1. Shape of the model

* **Values.** `u64`/`usize` are `N` (64-bit target). Every arithmetic operator of the Rust source is an explicit
  checked operation of the model: the plain operators (`+ - * / %`) are parametrised by the build flag `overflow_checks`
  (debug build: overflow is `Panic`; release build: wrap modulo 2^64), `checked_*` become `Err Overflow/Underflow`,
  `saturating_sub` is truncated subtraction. Theorems quantify over the flag, so they cover both builds.
* **Control.** A Rust function returning `Result<T>` becomes a function to `res T`, with
  `Ok a | Err e | Panic | Diverge`. `Panic` is an explicit value for `unwrap`/`expect`/indexing/arith panics, `Diverge` is
  "the loop did not stop within the fuel" for the two unbounded sampling loops. A function with a `&mut BeaconState`
  argument becomes `BeaconState -> res T * BeaconState`: the state is also returned on error, so partial mutation on
  the error path is visible.
* **State.** The functions of the generated fork modules (`altair/spec/mod.rs` etc.) are textual copies of the
  functions of the fork they originate from (checked by script). The model therefore has one `BeaconState` record with the union
  of the fields of all forks and one function per *original* Rust function; where a copy calls a fork-specific callee
  (e.g. `slash_validator`), the model function takes the fork as parameter.
* **External code** is an oracle in the environment record `Env`: SHA-256, SSZ `hash_tree_root`, BLS verification, public-key
  aggregation, the execution engine, KZG. Theorems hold for every oracle; where a fact about an oracle is needed (e.g.
  "the hash is 32 bytes") it is a hypothesis of the theorem and visible in the statement.
* **Specification.** The `Spec*.v` files contain the small independent vocabulary the theorem statements use (mathematical
  sums, filters, permutations, byte layouts), with no overflow handling and no monad.

## 2. Plan per property

| id | modelled | proof idea |
|----|----------|-----------|
| C01 | compute_shuffled_index | each round is an involution on [0,n) => bijection; composition by induction on rounds |
| C02 | compute_shuffled_indices (mirror/pivot segments, byte/bit caches) | loop invariant of the in-place swap pass = map of one inverse round; induction on rounds |
| C03 | compute_committee, get_beacon_committee | slices [n*i/c, n*(i+1)/c) tile [0,n); compose with C01 permutation |
| C04 | compute_proposer_index (both variants), get_beacon_proposer_index | invariant of the fuelled loop; both variants equal by C02 |
| C05, C07 | predicates | boolean reflection |
| C06 | is_valid_indexed_attestation | sort/dedup checks = strictly increasing |
| C08, C09 | balance helpers | list update lemmas; fold of checked_add = exact sum |
| C10 | initiate_validator_exit | max/count over registry; invariant over sequences |
| C11, C46 | process_registry_updates | sort + take; two-pass loop invariants |
| C12, C37 | slash_validator per fork | forward computation; invariant slashed-monotone for all operations |
| C13-C15 | slashings and exits | acceptance iff + effect |
| C16-C18 | weigh_justification_and_finalization | case analysis on bits; monotone history by induction |
| C19, C20 | process_slot(s) | induction on slots; ring buffer lemma |
| C21-C24 | header, randao, eth1 | forward computation |
| C25, C26, C33, C45, C55 | attestations | acceptance iff + effect |
| C27, C28 | deposits | acceptance + invariant |
| C29-C32, C34 | epoch steps | pointwise characterisation of loops |
| C35, C36 | sync committees | loop invariant of sampling |
| C38, C41 | fork upgrades | field-by-field |
| C39, C40 | merge/payload | acceptance iff + effect |
| C42-C44 | withdrawals | sweep = filtered cyclic prefix |
| C47-C57 | deneb/electra | as above; several are refuted by witnesses (findings) |
| C58-C59 | schedule, domains | arithmetic, byte lists |
| C60-C62 | state_transition, executor | composition |
| C63 | clock | division lemmas |
| C64-C68 | codecs | list/bit round trips; refutations for the two blob bugs |
| C69-C73 | duties, genesis, merkle, keys, JSON | induction |
| C74 | panic freedom of `process_slots` up to the next epoch start and `process_epoch`, all forks, both builds, under the visible bounds `within_bounds` (SpecTotal) | composition of the exact runs of every epoch step; interval reasoning; one overflow found in the electra correlation penalty (`C74_correlation_overflow`) |
| C75 | light_client gindex constants, Trees.v | computation over the field order |
| C76, C77 | every step of block and epoch processing (Frame.v footprints) | relation preserved by every model function, composed along the monad |
| C78, C79 | clock.rs stream, context.rs genesis times | induction over poll schedules; case analysis over networks |
| C80 | process_epoch, process_block, process_operations | the coded sequences equal the listed steps (SpecOrder) run left to right |
| C81 | process_block of phase0 to deneb never panics, both builds, bounds `block_bounds`/`block_fits` visible (SpecCrash) | a small safety calculus (`np`, `safe`) and an invariant with a budget for balances, exits and deposits, kept by every operation; two state facts shown necessary by general refutations |
| C82 | process_block of electra never panics without overflow checks; with them, no block without consolidations does | the C81 calculus with budgets for the exit and consolidation queues; the block with a valid consolidation is exhibited as a crash |
| C83 | accepted blocks contain exactly the next outstanding deposits, proven at consecutive leaves; wrong counts are rejected | inversion of process_block, frame lemmas for the two eth1 fields over every other step, induction over the deposit list |
| C84 | state_transition never panics: same epoch and next epoch, all forks; the boundary keeps block_bounds (electra: and queues_sound) | the safety calculus of C81 over process_slots, plus exact results of every epoch step (C11, C29, C30, C32, C74) to bound the state after the boundary. In electra the exit queue is bounded by a potential (queue start plus stake still to exit) and the stake by balances plus queued deposits. Left out: more than one boundary at once |
| C85, C86 | every method of the API client as a request (Api.v), against a node that routes and reads requests (SpecApi.v) | evaluation of the router on each request with the parameter texts abstract; read-back lemmas for numbers, hex texts, identifiers and comma-separated lists; splitting lemmas for paths |
| C87 | decoding of responses: Value, VersionedValue, ApiResult, ApiError, the status checks | case analysis over JSON objects, with the decoder of the requested type left arbitrary |
| C88 | the 672 accessors and 54 conversions of types/*.rs as data (AccessTable, generated from the source), interpreted by Access.v | the table is checked by computation for every type, view, fork and field; lifted to all values by lemmas about records |
| C89, C90 | every function that changes a state, and genesis, upgrades and failed calls: the well-formedness record of SpecReach (epoch order, references, committees) | an invariant kept by every model function whatever its outcome (Reach.v), by the upgrades and genesis (ReachHistory.v), by induction over histories; sizes and caps through the footprints of Frame.v |
| C91 | C81, C82, C84 for reachable states | the structural hypotheses of the crash theorems follow from C28, C89, C90 |
| C92 | `compute_proposer_index`, `get_next_sync_committee` | acceptance of a round is equivalent to holding the drawn byte as a ticket; electra refuted by showing the result independent of stakes above the old cap |
| C93, C94 | derived Serialize/Deserialize of all containers, serde.rs helpers; container table generated from the struct definitions | nested induction over a description of types; table-wide side conditions by kernel computation; deviations refuted for all texts |
| C95 | `process_rewards_and_penalties` | inequalities over the exact balances of C32; sums of floors bounded by the floor of the sum |
| C96 | `get_beacon_committee`, `get_beacon_proposer_index`, `get_seed`; every operation that writes a validator epoch or a randao mix | the step calculus of `Frame.v` records that exit and activation epochs lie beyond the look-ahead and which mix is written; induction over histories |
| C97 | `process_attestation` (phase0), `process_participation_record_updates`, `process_slots`, genesis | invariant over chains; stability of committees from C96, new votes from C25 |
| C98 | `state_transition` over an epoch boundary | C84 with its structural hypotheses discharged by C28, C89, C90, C97 |
| C99 | electra deposits and receipts | relation `electra_deposit` written from the property, acceptance iff, accounting identity by cases |
| C100 | everything a chain runs: slots, blocks, upgrades, justification and finalization | a walk (`SpecSafety.v`) lists the states one slot, block or upgrade at a time; an invariant over walks shows that every justified checkpoint has a supermajority link of signed votes from a justified source, and the finalized one the link finalization needs; two links that clash share a third of the stake |
| C101 | `process_attestation` (all forks), rotation, `translate_participation` | the vote part of the same invariant |
| C102 | `process_slots`, `state_transition`, upgrades, `weigh_justification_and_finalization` | frame lemmas show that only epoch ends touch the four finality fields; the epoch-end rule (C16, C32) is instantiated for chain states and composed over two or three epochs by cases on the justification bits |
| C103 | `is_valid_indexed_attestation`, `process_attester_slashing`, `get_domain`, all calls and upgrades | what a history keeps (keys, genesis root, fork record) by induction over calls; acceptance from C13; guilty pairs from C100 |
| C104 | `process_historical_*_update`, `process_slot`, upgrades, genesis | invariant over walks; the new entry from C31, the recorded roots from C20 |
| C105 | chains (C97), periods as quotients of the slot number (SpecSync.v) | one step keeps both committees or rotates them when the period ends; induction over walks; the sync aggregate is judged in a state with the same committees, roots and fork |
| C106 | process_block and process_slots of every fork; wealth, open votes, report rewards and sync pay written over record fields (SpecIssuance) | a potential argument: 448 x wealth + open votes + paid reports; each operation's change by inversion of its run; induction over the epoch |
| C107 | process_epoch from altair on | the rewards step by C95; every later step shown not to raise balances plus queue, by inversion of its run |
| C108 | process_block, process_slots and the upgrades of every fork (existing model), SpecAuthority: convicted | An invariant relating every intermediate registry to the one before the block, through every operation; the evidence is carried back to the state before the block, whose keys and fork versions are the same; induction over the walk |
| C109 | same as C108, SpecAuthority: exit_due, ejected | the same invariant; ejection by an invariant over epoch processing from the state before it |
| C110 | same as C108, SpecAuthority: credentials_due, consolidation_target, asks_consolidation | the same invariant; the queue by a second invariant through block and epoch processing |
| C111 | Peer.v: networking.rs with the loops of bs58 and the varint reader and writer | digit lists: value and canonicity of the multiply-and-carry loops, uniqueness of canonical digits; leading zeros separately |
| C112 | as C111 | inversion of the varint reader; a ten-byte header for the refutation |
| C113 | the whole of process_block, process_slots and the upgrades; signatures are an oracle | an invariant linking each validator to the one at its index before the block, or to a signed deposit of the block; induction over the history |
| C114 | as C113, with process_epoch | two links between a validator before and after the epoch, one for each half of the registry updates; the finalized checkpoint is constant after justification |
| C115 | process_block and everything below it, as for C108-C110 | an invariant on the state along the block: every balance is at least the one at the start or the validator has a cause, carried with the registry invariant of C108-C110 so that evidence and keys are those of the start state |
| C116 | process_epoch and its parts from altair on, process_slots, the upgrades (Epoch.v, Transition.v, Upgrade.v) | an invariant threaded through every phase of the epoch: no balance is lower than at the start unless a cause in the state at the start holds (DebitEpoch.v); induction over walks |
| C117 | process_block and its stages, process_slots, the upgrades | the stages of a block separated (header, withdrawals, payload, RANDAO, the rest), a frame for everything else (PayloadProofs.v); induction over walks with the chain of payloads as witness |
| C118 | process_randao, process_randao_mixes_reset, process_block, process_slots, the upgrades | stages of a block as in C117; induction over walks, and an index argument modulo the length of the vector for past epochs |
| C119 | process_block, process_eth1_data, process_eth1_data_reset, process_slots, the upgrades | a frame for every other step (BallotProofs.v), arithmetic of periods, induction over walks; two majorities of at most one vote per slot share a vote |
| C120 | process_block, slash_validator, process_slashings_reset, process_slots, the upgrades | a relation that keeps the stake of newly slashed validators, composed along every non-panicking run (CulpritProofs.v); wrap-around by arithmetic modulo the length; permutation of residues for the sum |
| C121 | the deposits of accepted blocks of a chain in order, and the contract's tree of depth 32 with the number of leaves mixed in | index frame over slots and upgrades; per-block consecutive proofs (C83); a leaf other than the log's gives an explicit collision (C71) |
| C122 | the withdrawals of accepted blocks of a chain in order | invariant of the sweep and of the queue loop; frame of next_withdrawal_index over all other processing, slots and upgrades; induction on the chain |
| C123 | chains whose blocks all leave a due validator unpaid, counted | the distance from the sweep pointer to the validator shrinks by at least the stride in each such block; frame of the pointer over all other processing; induction on the chain |
| C124 | chains of calls; number of validators with a given exit epoch | a relation (limit unchanged, exits per epoch grow only up to it) kept by every function of block and epoch processing; induction on the chain |
| C125 | chains of calls; number of validators with a given activation epoch | count through the registry step (only the capped head of the queue is changed); blocks and upgrades by C114; induction on the chain with the epochs whose turn has come |
| C126 | chains of calls; score of a validator; ends of epochs with and without a credited vote | every function but the score update leaves the scores or appends zero; loop over distinct eligible validators; induction on the chain |
| C127 | chains of calls; a weight follows a balance when it is within the hysteresis margins or at the cap | loop over the registry in the weight update, later parts of the epoch keep registry and balances; block frame for voting weights; induction on the chain |
| C128 | histories of public calls (SpecHistory); the cap of a validator by fork and credentials | invariant of every primitive update of the frame (Frame.prim), of the upgrades, and of the genesis registry of C70 |
| C129 | histories of public calls (SpecHistory); active set of an epoch | registry monotonicity across all forks (C76) and uniqueness of keys; committees and proposers are drawn from the active set |

## 3. Trusted base

* Coq's kernel (coqc and coqchk 8.16.1). `vm_compute` is used in examples and for facts about the shipped constants.
* No axioms of our own. `Print Assumptions` is run for every property theorem (the commands are at the end of each `Props*.v`):
  each prints "Closed under the global context". coqchk lists the `Under_rel` axioms of ssreflect's library file because the
  file is loaded; no theorem depends on them.
* The faithfulness of the model to the Rust text, which is by reading; each definition cites the file and lines it models and
  states its simplifications. Generated files (`Types.v`, `Ctx.v`, `Presets.v`) are produced from the Rust text by the scripts in
  `rocq/tools`, so field names and constants are not retyped.
* External code is a parameter (record `Env` and the records of `Keys.v`, `Signing.v`, `Blobs.v`, `Json.v`), never an axiom.

## 4. What is modelled

| code (under ethereum-consensus/src unless noted) | model file |
|---|---|
| language: integers, overflow, panics, lists, bytes | Base |
| containers of every fork | Types (generated) |
| state_transition/context.rs, configs, presets | Ctx, Presets (generated), Clock (fork schedule, genesis times) |
| phase0/helpers.rs, signing.rs, domains.rs | Helpers |
| altair/bellatrix/capella/deneb helpers.rs | HelpersAltair |
| electra/helpers.rs, slash_validator and initiate_validator_exit of all forks | HelpersElectra |
| `<fork>`/block_processing.rs | Block |
| `<fork>`/epoch_processing.rs | Epoch |
| phase0/slot_processing.rs, `<fork>`/state_transition.rs | Transition |
| `<fork>`/fork.rs | Upgrade |
| `<fork>`/genesis.rs | Genesis |
| state_transition/executor.rs | Executor |
| clock.rs | Clock |
| serde.rs, networks.rs, beacon-api-client/src/types.rs identifiers | Text |
| bin/ec/blobs | Blobs |
| light_client.rs constants, deneb/blob_sidecar.rs, merkle branches | Trees |
| bin/ec/validator | Keys |
| types/*.rs decoding | Json |
| serde attributes of the containers, serde.rs helpers | JsonCodec, JsonTable (generated by rocq/tools/gen_json.py) |
| types/*.rs accessors and conversions | Access, AccessTable (generated) |
| beacon-api-client/src/api_client.rs, api_error.rs, types.rs values and results | Api |
| crypto/bls.rs, builder/mod.rs, signing.rs | Signing |
| networking.rs (PeerId), with bs58, multihash and varints as published | Peer |

Not modelled: SSZ serialization and Merkleization (crate ssz_rs; `hash_tree_root` is an oracle), SHA-256, the BLS curve and the KZG
arithmetic (oracles), HTTP transport, URL escaping and event streams of beacon-api-client, argument parsing and file access of the `ec` tool, the
code generator spec-gen and the test runners in spec-tests, derived `Debug`/`Clone` code, logging.
The generated `<fork>/spec/mod.rs` files are represented through their originals; `rocq/tools/check_generated.py` compares them: all 322
generated functions have the body of the latest definition at or before their fork, and all 279 re-exported functions are the latest ones.

## 5. How statements relate to the model

The property theorems are in `Props*.v`. Their statements use the model function under test and the vocabulary of `Spec*.v`, which does
not mention model functions. Numeric side conditions (for example "the registry has at most 2^40 entries", "the slot is below 2^56") are
hypotheses; `C74_networks` and `C81_networks` show that every shipped configuration meets the ones about constants, and each theorem has an
`Example` beside it that meets all of them on a concrete state. `Toy*.v` define the small configuration the examples use.
A theorem with suffix `_refuted` proves that the code violates the English property, for all inputs meeting its hypotheses or by a witness;
`_partial` marks a theorem that covers only part of its property.

## 6. Violations found in the code

Each is a theorem; the notes in MANIFEST.json say more.

| theorem | effect |
|---|---|
| C15_service_time_refuted | voluntary exit checks the service time against the eligibility epoch instead of the activation epoch |
| C37_proposer_share_refuted | from altair on the proposer's share of a whistleblower reward is always zero |
| C27_electra_*_refuted | electra: an invalid deposit signature makes the whole block invalid |
| C43_electra_pointer_refuted | electra: the withdrawal sweep resumes at the wrong validator |
| C54_*_refuted | electra: pending partial withdrawals debit the wrong validator; skipped entries stay queued |
| C49_exceeds_limit_refuted | electra: consolidations limited by the wrong churn |
| C55_two_committees_refuted | electra: aggregation bits of the second committee read at the wrong offset |
| C56_*_refuted | electra: every block fails while eth1 deposits are outstanding |
| C57_*_refuted | electra: a valid consolidation overflows (checked build panics) |
| C60_at_fork_slot_refuted, C61_*_refuted | executor cannot continue from a state at a fork slot; failed blocks leave partial effects |
| C65, C67 refuted | blob packing loses data for some lengths; declared size can cause an out-of-range slice |
| C68, C73, C75, C79 refuted | custom network text, electra JSON and blinded blocks read as altair blocks, electra light client indices, Hoodi genesis time |
| C70 refuted | electra genesis starts with receipts index 0 |
| C72 refuted | keystores with particular decryption keys do not open under EIP-2335 |
| C74_electra_slashings_panic | electra correlation penalty can overflow |
| C78_duplicate_refuted | the slot stream can yield a slot twice |
| C81_deposit_count_underflow_refuted | an eth1 majority that lowers the deposit count crashes every later block in checked builds |
| C82_consolidation_block_refuted | a block with one valid consolidation crashes checked builds and is accepted by release builds |
| C89_release_refuted | release builds: after a consolidation a validator can be withdrawable before it exits |
| C92_electra_proposer_refuted, C92_electra_sync_committee_refuted | electra samples with the 32 ETH cap: stakes above it do not raise the odds |
| C93_reader_refuted | `seq_of_str` needs borrowed strings: containers with a non-empty list of numbers cannot be read with `from_reader` or `from_value` |
| C94_read_refuted | light client updates, SyncAggregatorSelectionData and Eth1Block have an integer without `as_str`: every API text is refused |
| C94_members_refuted | ExecutionLayerWithdrawalRequest names its key `pubkey`, the specification `validator_pubkey` |
| C85_blob_indices_refuted | `get_blob_sidecars` with indices never sends a request |
| C85_liveness_refuted | `post_liveness` sends indices in a form the API does not have |
| C86_peer_refuted, C86_events_refuted | `get_peer` and `get_events` ignore the path of the endpoint |
| C86_no_trailing_slash_refuted | the last part of an endpoint's path is dropped if no slash follows |
| C87_status_ignored_refuted | a GET that failed is a success if the body has decodable `data` |
| C87_headers_refuted, C87_randao_refuted, C87_updates_refuted | three kinds of well-formed answers cannot be read |
| C112_other_form_refuted | every peer identifier can be written with a ten-byte header as well, which is read as the same identifier |
| C08, C16, C20 refuted | wrap-around of balances in release builds; underflow at slot 0 |
