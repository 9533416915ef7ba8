{"id": "C01", "title": "Shuffling is a permutation", "statement": "For every 32-byte seed and every index_count > 0, compute_shuffled_index maps the valid indices 0..index_count-1 one-to-one onto themselves; an index outside that range is rejected with InvalidShufflingIndex and never silently mapped.", "quantifier": "all seeds, all index counts, all indices, any shuffle_round_count, any hash function", "why_tests_cant": "the space of seeds and counts is astronomically large; a collision for one (seed,count) pair would put a validator in two committees", "anchors": ["ethereum-consensus/src/phase0/helpers.rs: compute_shuffled_index"]}
{"id": "C02", "title": "Optimised shuffle equals the reference shuffle", "statement": "compute_shuffled_indices (whole-list shuffle used with the `shuffling` feature) places at position i exactly the element that compute_shuffled_index selects for i, so committees and proposers do not depend on whether the feature is enabled.", "quantifier": "all lists, seeds and round counts >= 1", "why_tests_cant": "the two algorithms are different code; equality on sampled inputs says nothing about other list lengths (segment boundaries at 256) or seeds", "anchors": ["ethereum-consensus/src/phase0/helpers.rs: compute_shuffled_indices, compute_shuffled_index, compute_committee"]}
{"id": "C03", "title": "Committees partition the active set", "statement": "For an epoch, the committees of all slots and committee indices, taken together, contain every active validator exactly once and no one else.", "quantifier": "all states, epochs, seeds, active set sizes, preset constants", "why_tests_cant": "needs every active set size against integer-division boundaries", "anchors": ["ethereum-consensus/src/phase0/helpers.rs: compute_committee, get_beacon_committee, get_committee_count_per_slot"]}
{"id": "C04", "title": "The block proposer is an active validator", "statement": "Whenever get_beacon_proposer_index returns, the index it returns belongs to a validator active in the current epoch, and candidates are accepted exactly with the specified effective-balance test; an empty active set is reported as an error.", "quantifier": "all states, seeds, effective balances, any number of sampling rounds", "why_tests_cant": "rejection sampling is an unbounded loop; tests only see runs that stop early", "anchors": ["ethereum-consensus/src/phase0/helpers.rs: compute_proposer_index, sample_proposer_index, get_beacon_proposer_index"]}
{"id": "C05", "title": "Slashable vote decision is exactly double-vote or surround-vote", "statement": "is_slashable_attestation_data(a,b) holds iff a and b are different votes with the same target epoch, or a surrounds b; it never flags a pair of honest, non-conflicting votes.", "quantifier": "all pairs of attestation data", "why_tests_cant": "all epochs combinations including equal boundaries", "anchors": ["ethereum-consensus/src/phase0/helpers.rs: is_slashable_attestation_data"]}
{"id": "C06", "title": "Indexed attestations are accepted only when well formed and signed", "statement": "is_valid_indexed_attestation returns Ok iff the indices are non-empty, strictly increasing, all refer to registered validators, and the aggregate signature verifies for exactly those public keys over the data with the attester domain of the target epoch.", "quantifier": "all states and indexed attestations, any signature verifier", "why_tests_cant": "the acceptance condition ranges over all index lists and all verifier behaviours", "anchors": ["ethereum-consensus/src/phase0/helpers.rs: is_valid_indexed_attestation"]}
{"id": "C07", "title": "Validator life-cycle predicates", "statement": "A validator is active exactly in [activation_epoch, exit_epoch), slashable exactly when unslashed and in [activation_epoch, withdrawable_epoch), queue-eligible exactly when never queued with full effective balance, and activatable exactly when queued at a finalized epoch and not yet activated.", "quantifier": "all validators, epochs, states", "why_tests_cant": "off-by-one at any of the boundary epochs", "anchors": ["ethereum-consensus/src/phase0/helpers.rs: is_active_validator, is_slashable_validator, is_eligible_for_activation_queue, is_eligible_for_activation"]}
{"id": "C08", "title": "Balance updates touch one account and never go negative", "statement": "increase_balance adds exactly delta to one account; decrease_balance subtracts min(delta, balance); every other account and every other state component is unchanged; an unknown index is an error/panic and not a silent write.", "quantifier": "all states, indices, deltas (including overflow)", "why_tests_cant": "all interleavings of indices and amounts near 0 and 2^64", "anchors": ["ethereum-consensus/src/phase0/helpers.rs: increase_balance, decrease_balance"]}
{"id": "C09", "title": "Total balance is an exact sum with a floor", "statement": "get_total_balance / get_total_active_balance return the maximum of EFFECTIVE_BALANCE_INCREMENT and the exact mathematical sum of effective balances, or Err(Overflow); the result never wraps.", "quantifier": "all states and index sets", "why_tests_cant": "wrap-around only shows for sums above 2^64", "anchors": ["ethereum-consensus/src/phase0/helpers.rs: get_total_balance, get_total_active_balance"]}
{"id": "C10", "title": "Exit queue respects delay and churn", "statement": "initiate_validator_exit leaves an exiting validator untouched; otherwise assigns an exit epoch that is not before any epoch already in the queue nor before the activation-exit delay, never pushes the number of exits in the assigned epoch above the churn limit, sets withdrawable_epoch = exit_epoch + MIN_VALIDATOR_WITHDRAWABILITY_DELAY, and changes nothing else; over any sequence of exits the per-epoch bound is kept.", "quantifier": "all registries and any sequence of exit requests", "why_tests_cant": "churn is a property of histories of exits, not of one call", "anchors": ["ethereum-consensus/src/phase0/helpers.rs: initiate_validator_exit, get_validator_churn_limit, compute_activation_exit_epoch"]}
{"id": "C11", "title": "Activation queue is FIFO and churn limited", "statement": "Registry updates activate at most the churn limit of validators per epoch, in order of (activation_eligibility_epoch, index), only validators that are eligible for activation, all with the same activation epoch, and eject exactly the active validators at or below the ejection balance.", "quantifier": "all registries", "why_tests_cant": "order/bounds over all registries and ties", "anchors": ["ethereum-consensus/src/phase0/epoch_processing.rs: process_registry_updates", "ethereum-consensus/src/deneb/epoch_processing.rs: process_registry_updates"]}
{"id": "C12", "title": "Slashing has exactly the specified effect and is permanent", "statement": "slash_validator marks the validator slashed, initiates its exit, pushes withdrawable_epoch to at least epoch + EPOCHS_PER_SLASHINGS_VECTOR, adds its effective balance to the slashings vector, applies the penalty, pays whistleblower and proposer the specified shares; no operation ever clears the slashed flag.", "quantifier": "all states, all forks, all operation sequences", "why_tests_cant": "permanence quantifies over every later history", "anchors": ["ethereum-consensus/src/phase0/helpers.rs: slash_validator", "ethereum-consensus/src/altair/helpers.rs: slash_validator", "ethereum-consensus/src/bellatrix/helpers.rs: slash_validator", "ethereum-consensus/src/electra/helpers.rs: slash_validator"]}
{"id": "C13", "title": "Attester slashing slashes exactly the culpable validators", "statement": "process_attester_slashing succeeds iff the two votes are slashable, both indexed attestations are valid and at least one common attester is slashable; it then slashes exactly the slashable validators in the intersection of both index lists, in increasing order.", "quantifier": "all states and attester slashings", "why_tests_cant": "set intersection over all index lists", "anchors": ["ethereum-consensus/src/phase0/block_processing.rs: process_attester_slashing"]}
{"id": "C14", "title": "Proposer slashing acceptance condition", "statement": "process_proposer_slashing succeeds only if both headers have the same slot and proposer, differ, the proposer is registered and slashable and both signatures verify under the proposer key and the proposer domain of the header epoch; and then slashes exactly that proposer.", "quantifier": "all states and proposer slashings", "why_tests_cant": "conjunction of seven conditions over arbitrary states", "anchors": ["ethereum-consensus/src/phase0/block_processing.rs: process_proposer_slashing"]}
{"id": "C15", "title": "Voluntary exits: minimum service time", "statement": "A voluntary exit is accepted only if the validator is active, not exiting, the exit epoch has been reached, it has been active for at least SHARD_COMMITTEE_PERIOD epochs, and the signature verifies (the activity clause is what the protocol specifies; the code measures it from activation_eligibility_epoch).", "quantifier": "all states and exits", "why_tests_cant": "depends on the relation of two epoch fields that tests usually set equal", "anchors": ["ethereum-consensus/src/phase0/block_processing.rs: process_voluntary_exit", "ethereum-consensus/src/deneb/block_processing.rs: process_voluntary_exit", "ethereum-consensus/src/electra/block_processing.rs: process_voluntary_exit"]}
{"id": "C16", "title": "Justification and finalization follow Casper FFG", "statement": "weigh_justification_and_finalization updates the two justified checkpoints, the finalized checkpoint and the four justification bits exactly as specified; justified and finalized epochs never decrease; it reports an arithmetic problem instead of computing with wrapped balances.", "quantifier": "all states and balances, all epoch histories", "why_tests_cant": "needs all 16 bit patterns against all epoch relations and monotonicity over histories", "anchors": ["ethereum-consensus/src/phase0/epoch_processing.rs: weigh_justification_and_finalization"]}
{"id": "C17", "title": "Supermajority is required to justify", "statement": "An epoch becomes justified only if the attesting balance on its target is at least two thirds of the total active balance.", "quantifier": "all states", "why_tests_cant": "all balances including rounding boundaries", "anchors": ["ethereum-consensus/src/phase0/epoch_processing.rs: process_justification_and_finalization, weigh_justification_and_finalization", "ethereum-consensus/src/altair/epoch_processing.rs: process_justification_and_finalization"]}
{"id": "C18", "title": "Only justified checkpoints are finalized, at most three epochs deep", "statement": "Whenever the finalized checkpoint changes, the new one was one of the two justified checkpoints held before the update and all epochs from it to the one that justifies it (at most 3 apart) are justified.", "quantifier": "all states", "why_tests_cant": "four finality rules over all epoch relations", "anchors": ["ethereum-consensus/src/phase0/epoch_processing.rs: weigh_justification_and_finalization"]}
{"id": "C19", "title": "process_slots advances to exactly the requested slot", "statement": "process_slots(state, slot) fails without touching the state if slot <= state.slot, otherwise ends with state.slot = slot, runs per-slot processing once for each intermediate slot and epoch processing exactly once for every epoch boundary crossed, in order, before the slot counter passes it; processing to b directly equals processing to a then to b.", "quantifier": "all states and slots", "why_tests_cant": "any number of slots and epochs", "anchors": ["ethereum-consensus/src/phase0/slot_processing.rs: process_slots, process_slot"]}
{"id": "C20", "title": "Recorded block and state roots stay readable for a full window", "statement": "After advancing slots, get_block_root_at_slot(s) returns the block root that was recorded when slot s was processed for every s in [state.slot - SLOTS_PER_HISTORICAL_ROOT, state.slot), and is an error outside that window.", "quantifier": "all histories of slot processing", "why_tests_cant": "ring-buffer aliasing over unbounded histories", "anchors": ["ethereum-consensus/src/phase0/slot_processing.rs: process_slot", "ethereum-consensus/src/phase0/helpers.rs: get_block_root_at_slot"]}
{"id": "C21", "title": "Block header acceptance", "statement": "process_block_header accepts exactly blocks for the current slot, newer than the latest header, by the expected, unslashed proposer and whose parent root is the root of the latest block header; the stored header has zero state root.", "quantifier": "all states and blocks, any root function", "why_tests_cant": "conjunction over arbitrary states", "anchors": ["ethereum-consensus/src/phase0/block_processing.rs: process_block_header"]}
{"id": "C22", "title": "At most one block per slot", "statement": "After a block header was accepted no second block header is accepted before a further slot is processed.", "quantifier": "all states and pairs of blocks", "why_tests_cant": "quantifies over every second block", "anchors": ["ethereum-consensus/src/phase0/block_processing.rs: process_block_header"]}
{"id": "C23", "title": "RANDAO accumulation", "statement": "process_randao succeeds only if the reveal is a valid signature of the proposer over the current epoch, then replaces the current epoch mix by the xor with the hash of the reveal and changes nothing else; mixing the same reveal twice restores the mix.", "quantifier": "all states and reveals", "why_tests_cant": "all byte strings", "anchors": ["ethereum-consensus/src/phase0/block_processing.rs: process_randao, xor", "ethereum-consensus/src/phase0/helpers.rs: get_randao_mix"]}
{"id": "C24", "title": "Eth1 data changes only on a strict majority vote", "statement": "process_eth1_data appends the vote and adopts it iff it then has more than half of the votes of a full voting period; within a period at most one candidate can be adopted.", "quantifier": "all vote sequences", "why_tests_cant": "majority over all sequences of votes", "anchors": ["ethereum-consensus/src/phase0/block_processing.rs: process_eth1_data"]}
{"id": "C25", "title": "Attestation inclusion window and source check (phase0)", "statement": "process_attestation accepts exactly attestations whose target is the current or previous epoch and matches the slot, whose slot lies in the inclusion window, whose committee index exists, whose bits match the committee length, whose source equals the relevant justified checkpoint and whose indexed form is valid; it then appends one pending attestation with the inclusion delay and proposer to the matching list and changes nothing else; a rejected attestation leaves the state unchanged.", "quantifier": "all states and attestations", "why_tests_cant": "conjunction of range conditions", "anchors": ["ethereum-consensus/src/phase0/block_processing.rs: process_attestation"]}
{"id": "C26", "title": "Attesting indices are exactly the committee members whose bit is set", "statement": "get_attesting_indices returns the set of committee members whose aggregation bit is set and rejects bitfields of the wrong length.", "quantifier": "all states, bitfields, committees", "why_tests_cant": "all bitfields", "anchors": ["ethereum-consensus/src/phase0/helpers.rs: get_attesting_indices, get_indexed_attestation", "ethereum-consensus/src/electra/helpers.rs: get_attesting_indices"]}
{"id": "C27", "title": "Deposits", "statement": "A deposit with a bad Merkle proof is rejected; otherwise the deposit index advances by one and: a known key is topped up by exactly the amount; an unknown key with a valid deposit signature becomes a new validator appended at the end with the amount as balance and the rounded, capped effective balance; an unknown key with an invalid signature is ignored.", "quantifier": "all states and deposits", "why_tests_cant": "all registries and amounts", "anchors": ["ethereum-consensus/src/phase0/block_processing.rs: process_deposit, apply_deposit, get_validator_from_deposit, add_validator_to_registry", "ethereum-consensus/src/altair/block_processing.rs: add_validator_to_registry"]}
{"id": "C28", "title": "Registry columns stay aligned", "statement": "Validators, balances, participation flags and inactivity scores always have the same length, and no two registered validators share a public key, after any sequence of operations, blocks and epochs.", "quantifier": "all reachable states", "why_tests_cant": "invariant over unbounded histories", "anchors": ["ethereum-consensus/src/phase0/block_processing.rs: apply_deposit", "ethereum-consensus/src/altair/block_processing.rs: add_validator_to_registry", "ethereum-consensus/src/electra/block_processing.rs: apply_deposit"]}
{"id": "C29", "title": "Effective balance hysteresis", "statement": "process_effective_balance_updates sets an effective balance to min(balance rounded down to the increment, cap) exactly when balance left the hysteresis band, and otherwise keeps it; results are multiples of the increment and at most the cap; applying it twice equals applying it once.", "quantifier": "all balances, effective balances, presets", "why_tests_cant": "boundary values of the band", "anchors": ["ethereum-consensus/src/phase0/epoch_processing.rs: process_effective_balance_updates", "ethereum-consensus/src/electra/epoch_processing.rs: process_effective_balance_updates"]}
{"id": "C30", "title": "Correlation penalty", "statement": "process_slashings deducts from each slashed validator that is halfway to withdrawability exactly effective_balance/increment * min(sum(slashings)*multiplier, total)/total * increment (saturating at 0) and touches nobody else.", "quantifier": "all states, all forks", "why_tests_cant": "all balances; rounding order", "anchors": ["ethereum-consensus/src/phase0/epoch_processing.rs: process_slashings", "ethereum-consensus/src/altair/epoch_processing.rs: process_slashings", "ethereum-consensus/src/bellatrix/epoch_processing.rs: process_slashings"]}
{"id": "C31", "title": "Periodic resets", "statement": "Eth1 votes are cleared exactly at voting-period ends; the next slashings slot is zeroed; the next RANDAO slot is seeded with the current mix; historical batches/summaries are appended exactly at period ends; pending attestations / participation flags rotate.", "quantifier": "all states", "why_tests_cant": "all epochs modulo the periods", "anchors": ["ethereum-consensus/src/phase0/epoch_processing.rs: process_eth1_data_reset, process_slashings_reset, process_randao_mixes_reset, process_historical_roots_update, process_participation_record_updates", "ethereum-consensus/src/altair/epoch_processing.rs: process_participation_flag_updates", "ethereum-consensus/src/capella/epoch_processing.rs: process_historical_summaries_update"]}
{"id": "C32", "title": "Rewards and penalties only for eligible validators", "statement": "Epoch rewards and penalties are applied only to validators active in the previous epoch or slashed and not yet withdrawable, and in phase0 also to the proposers that included the previous epoch's attestations; nobody else changes balance; no deltas are applied in the genesis epoch.", "quantifier": "all states", "why_tests_cant": "whole-registry statement", "anchors": ["ethereum-consensus/src/phase0/epoch_processing.rs: process_rewards_and_penalties, get_attestation_deltas", "ethereum-consensus/src/altair/epoch_processing.rs: process_rewards_and_penalties"]}
{"id": "C33", "title": "Participation flags", "statement": "Altair attestation processing sets exactly the timely source/target/head flags earned by the attestation for exactly the attesting validators, never clears a flag, and pays the proposer in proportion to newly set flags only (repeating an attestation pays nothing).", "quantifier": "all states and attestations", "why_tests_cant": "all flag bytes and index sets", "anchors": ["ethereum-consensus/src/altair/block_processing.rs: process_attestation", "ethereum-consensus/src/altair/helpers.rs: add_flag, has_flag, get_attestation_participation_flag_indices", "ethereum-consensus/src/deneb/block_processing.rs: process_attestation", "ethereum-consensus/src/deneb/helpers.rs: get_attestation_participation_flag_indices"]}
{"id": "C34", "title": "Inactivity scores", "statement": "process_inactivity_updates decreases scores of target-timely validators by one (floor 0), increases others by the bias, and additionally lowers all by the recovery rate when not leaking; scores of non-eligible validators are unchanged.", "quantifier": "all states", "why_tests_cant": "all scores", "anchors": ["ethereum-consensus/src/altair/epoch_processing.rs: process_inactivity_updates"]}
{"id": "C35", "title": "Sync committee rotation", "statement": "The current sync committee becomes the next one exactly at period boundaries; every member of a computed sync committee is active in the next epoch; the committee has exactly SYNC_COMMITTEE_SIZE members.", "quantifier": "all states, seeds", "why_tests_cant": "unbounded sampling", "anchors": ["ethereum-consensus/src/altair/epoch_processing.rs: process_sync_committee_updates", "ethereum-consensus/src/altair/helpers.rs: get_next_sync_committee_indices, get_next_sync_committee"]}
{"id": "C36", "title": "Sync aggregate rewards", "statement": "Each participating committee member gains the participant reward, each absent member loses it, the proposer gains the proposer share per participant; an aggregate whose signature does not verify for exactly the participating keys over the previous block root is rejected.", "quantifier": "all states and aggregates", "why_tests_cant": "all bitvectors, duplicated members", "anchors": ["ethereum-consensus/src/altair/block_processing.rs: process_sync_aggregate"]}
{"id": "C37", "title": "Proposer share of slashing rewards (altair and later)", "statement": "When a whistleblower other than the proposer is named, the proposer receives whistleblower_reward * PROPOSER_WEIGHT / WEIGHT_DENOMINATOR and the whistleblower the rest.", "quantifier": "all states", "why_tests_cant": "integer evaluation order makes the share zero for every input", "anchors": ["ethereum-consensus/src/altair/helpers.rs: slash_validator", "ethereum-consensus/src/bellatrix/helpers.rs: slash_validator", "ethereum-consensus/src/electra/helpers.rs: slash_validator"]}
{"id": "C38", "title": "upgrade_to_altair preserves the registry and history", "statement": "The upgrade keeps slot, balances, validators, histories and checkpoints, records the fork versions, translates pending attestations to participation flags, zeroes inactivity scores.", "quantifier": "all phase0 states", "why_tests_cant": "all states", "anchors": ["ethereum-consensus/src/altair/fork.rs: upgrade_to_altair, translate_participation"]}
{"id": "C39", "title": "Merge transition predicates", "statement": "Merge transition completes exactly when the stored payload header is non-default; execution is enabled iff complete or this block is the transition block.", "quantifier": "all states and bodies", "why_tests_cant": "trichotomy over states", "anchors": ["ethereum-consensus/src/bellatrix/helpers.rs: is_merge_transition_complete, is_merge_transition_block, is_execution_enabled"]}
{"id": "C40", "title": "Execution payload acceptance", "statement": "A payload is accepted only if it extends the recorded parent hash (after the merge), carries the current RANDAO mix and the slot timestamp, respects the blob limit (deneb) and is accepted by the execution engine; the state then stores exactly the header of this payload.", "quantifier": "all states and payloads, any engine", "why_tests_cant": "engine verdict is external", "anchors": ["ethereum-consensus/src/bellatrix/block_processing.rs: process_execution_payload", "ethereum-consensus/src/capella/block_processing.rs: process_execution_payload", "ethereum-consensus/src/deneb/block_processing.rs: process_execution_payload", "ethereum-consensus/src/electra/block_processing.rs: process_execution_payload"]}
{"id": "C41", "title": "Later fork upgrades preserve state", "statement": "upgrade_to_bellatrix/capella/deneb/electra preserve every pre-existing component, set the fork record, and initialise new components as specified.", "quantifier": "all states", "why_tests_cant": "all states", "anchors": ["ethereum-consensus/src/bellatrix/fork.rs", "ethereum-consensus/src/capella/fork.rs", "ethereum-consensus/src/deneb/fork.rs", "ethereum-consensus/src/electra/fork.rs"]}
{"id": "C42", "title": "Withdrawal sweep", "statement": "get_expected_withdrawals returns at most MAX_WITHDRAWALS_PER_PAYLOAD withdrawals with consecutive indices, for distinct validators met in cyclic order from the sweep start within the sweep bound; full withdrawals exactly for withdrawable validators, partial ones exactly for the excess above the maximum.", "quantifier": "all states", "why_tests_cant": "cyclic sweep over all registry sizes", "anchors": ["ethereum-consensus/src/capella/block_processing.rs: get_expected_withdrawals"]}
{"id": "C43", "title": "process_withdrawals", "statement": "Accepts exactly payloads whose withdrawals equal the expected list, debits exactly those amounts, advances the withdrawal index and the sweep pointer so that no validator is skipped or served twice in one round.", "quantifier": "all states and payloads", "why_tests_cant": "history of sweeps", "anchors": ["ethereum-consensus/src/capella/block_processing.rs: process_withdrawals"]}
{"id": "C44", "title": "BLS-to-execution change is one-way", "statement": "Succeeds only for BLS credentials whose hash matches the given key and a valid signature, sets 0x01 credentials carrying the address, never applies twice to a validator.", "quantifier": "all states and changes", "why_tests_cant": "all byte strings", "anchors": ["ethereum-consensus/src/capella/block_processing.rs: process_bls_to_execution_change"]}
{"id": "C45", "title": "Deneb attestation window", "statement": "From deneb on, an attestation is accepted with no upper inclusion delay other than target epoch in {previous,current}.", "quantifier": "all states and attestations", "why_tests_cant": "range", "anchors": ["ethereum-consensus/src/deneb/block_processing.rs: process_attestation"]}
{"id": "C46", "title": "Activation churn cap (deneb)", "statement": "At most min(MAX_PER_EPOCH_ACTIVATION_CHURN_LIMIT, churn limit) validators are activated per epoch.", "quantifier": "all states", "why_tests_cant": "all registry sizes", "anchors": ["ethereum-consensus/src/deneb/helpers.rs: get_validator_activation_churn_limit", "ethereum-consensus/src/deneb/epoch_processing.rs: process_registry_updates"]}
{"id": "C47", "title": "Blob versioned hashes", "statement": "kzg_commitment_to_versioned_hash is 0x01 followed by the last 31 bytes of the commitment hash, so commitments with different hashes-tails get different versioned hashes.", "quantifier": "all commitments, any hash", "why_tests_cant": "all byte strings", "anchors": ["ethereum-consensus/src/deneb/helpers.rs: kzg_commitment_to_versioned_hash"]}
{"id": "C48", "title": "Electra balance churn for exits", "statement": "compute_exit_epoch_and_update_churn never schedules more balance per epoch than the churn limit, over any sequence of exits.", "quantifier": "all sequences of exits", "why_tests_cant": "history property", "anchors": ["ethereum-consensus/src/electra/helpers.rs: compute_exit_epoch_and_update_churn"]}
{"id": "C49", "title": "Electra consolidation churn", "statement": "compute_consolidation_epoch_and_update_churn is limited by the consolidation churn limit (the code uses the activation/exit limit).", "quantifier": "all states", "why_tests_cant": "requires comparing two limits on all states", "anchors": ["ethereum-consensus/src/electra/helpers.rs: compute_consolidation_epoch_and_update_churn"]}
{"id": "C50", "title": "Pending balance deposits", "statement": "process_pending_balance_deposits applies queue entries in order while the churn allows and neither loses nor duplicates any pending amount.", "quantifier": "all states", "why_tests_cant": "conservation over whole queues", "anchors": ["ethereum-consensus/src/electra/epoch_processing.rs: process_pending_balance_deposits"]}
{"id": "C51", "title": "Pending consolidations", "statement": "process_pending_consolidations moves the source active balance to the target exactly once, in queue order, and stops at the first source not yet withdrawable.", "quantifier": "all states", "why_tests_cant": "queue", "anchors": ["ethereum-consensus/src/electra/epoch_processing.rs: process_pending_consolidations"]}
{"id": "C52", "title": "Compounding credentials and queued excess", "statement": "switch_to_compounding_validator changes only 0x01 credentials to 0x02, and queues the excess over MIN_ACTIVATION_BALANCE, conserving balance plus pending deposits.", "quantifier": "all states", "why_tests_cant": "conservation", "anchors": ["ethereum-consensus/src/electra/helpers.rs: switch_to_compounding_validator, queue_excess_active_balance, queue_entire_balance_and_reset_validator"]}
{"id": "C53", "title": "Execution-layer withdrawal requests", "statement": "process_execution_layer_withdrawal_request ignores unauthorised or malformed requests without error; full exits only with empty pending queue; partial withdrawals only from compounding credentials and never for more than the excess over MIN_ACTIVATION_BALANCE net of pending.", "quantifier": "all states and requests", "why_tests_cant": "many guards", "anchors": ["ethereum-consensus/src/electra/block_processing.rs: process_execution_layer_withdrawal_request"]}
{"id": "C54", "title": "Electra withdrawals debit the queued validator", "statement": "A pending partial withdrawal in electra debits the validator that queued it and is consumed exactly once.", "quantifier": "all states with pending partial withdrawals", "why_tests_cant": "queue index confusions only show with particular indices", "anchors": ["ethereum-consensus/src/electra/block_processing.rs: get_expected_withdrawals, process_withdrawals"]}
{"id": "C55", "title": "Electra attesting indices across committees", "statement": "With several committee bits set, an attester is counted iff the bit at its cumulative offset is set.", "quantifier": "all attestations spanning committees", "why_tests_cant": "needs more than one committee", "anchors": ["ethereum-consensus/src/electra/helpers.rs: get_attesting_indices"]}
{"id": "C56", "title": "Electra eth1 deposits are included while outstanding", "statement": "A block is required to carry exactly min(MAX_DEPOSITS, outstanding) eth1 deposits while deposits below the receipts start index are outstanding, and none afterwards.", "quantifier": "all states and bodies", "why_tests_cant": "condition nesting", "anchors": ["ethereum-consensus/src/electra/block_processing.rs: process_operations"]}
{"id": "C57", "title": "Consolidation operation", "statement": "process_consolidation accepts only distinct, active, non-exiting validators with equal execution addresses and two valid signatures; it schedules the source exit and queues the consolidation.", "quantifier": "all states and consolidations", "why_tests_cant": "conjunction", "anchors": ["ethereum-consensus/src/electra/block_processing.rs: process_consolidation"]}
{"id": "C58", "title": "Fork schedule", "statement": "fork_for(slot) is monotone in the slot when fork epochs are ordered and changes exactly at the configured epoch boundaries; fork_version_for is injective for each supported network.", "quantifier": "all slots and schedules", "why_tests_cant": "all slots", "anchors": ["ethereum-consensus/src/state_transition/context.rs: fork_for, fork_version_for"]}
{"id": "C59", "title": "Domain separation", "statement": "Signature domains are 32 bytes: 4 bytes of domain type then 28 bytes of the fork data root; equal domains imply equal type bytes and fork data root prefixes; get_domain uses the previous fork version exactly for epochs before the fork epoch.", "quantifier": "all types, versions, roots", "why_tests_cant": "all byte strings", "anchors": ["ethereum-consensus/src/phase0/helpers.rs: compute_domain, compute_fork_digest, get_domain", "ethereum-consensus/src/domains.rs: DomainType::as_bytes"]}
{"id": "C60", "title": "Executor applies each block under the fork it was built for", "statement": "Executor::apply_block runs state through every intermediate fork upgrade at its fork slot, never applies a block of an earlier fork to a later state, and the resulting state variant equals the block variant.", "quantifier": "all states, blocks and schedules", "why_tests_cant": "sequence of upgrades", "anchors": ["ethereum-consensus/src/state_transition/executor.rs"]}
{"id": "C61", "title": "Failed block application leaves the state unchanged", "statement": "If applying a block returns an error the caller-visible state is as before the call.", "quantifier": "all states and invalid blocks", "why_tests_cant": "needs every failing path", "anchors": ["ethereum-consensus/src/phase0/state_transition.rs", "ethereum-consensus/src/state_transition/executor.rs", "ethereum-consensus/src/phase0/block_processing.rs"]}
{"id": "C62", "title": "Full validation", "statement": "With Validation::Enabled an accepted block has a valid proposer signature and its state root equals the root of the post state; Validation::Disabled yields the same post state.", "quantifier": "all states and blocks", "why_tests_cant": "all blocks", "anchors": ["ethereum-consensus/src/phase0/state_transition.rs", "ethereum-consensus/src/bellatrix/state_transition.rs"]}
{"id": "C63", "title": "Slot clock", "statement": "current_slot is None exactly before genesis; slot k is current exactly during [genesis + k*S, genesis + (k+1)*S) nanoseconds; waiting duration_until_next_slot lands exactly at the start of the next slot; timestamp_at_slot is its left inverse.", "quantifier": "all times, genesis times and slot durations", "why_tests_cant": "all nanosecond instants and overflow limits", "anchors": ["ethereum-consensus/src/clock.rs"]}
{"id": "C64", "title": "Hex text encoding round-trips", "statement": "Decoding the hex text of a byte string gives back the byte string, with or without 0x prefix, upper or lower case; invalid digits or odd lengths are errors; encoding is injective.", "quantifier": "all byte strings", "why_tests_cant": "all strings", "anchors": ["ethereum-consensus/src/serde.rs: as_hex, try_bytes_from_hex_str, write_bytes_to_lower_hex"]}
{"id": "C65", "title": "Blob packing round-trips", "statement": "Decoding packed blobs with sized framing returns exactly the original data for every data length.", "quantifier": "all byte strings", "why_tests_cant": "boundary lengths at multiples of the blob capacity", "anchors": ["ethereum-consensus/src/bin/ec/blobs/encode.rs", "ethereum-consensus/src/bin/ec/blobs/decode.rs", "ethereum-consensus/src/bin/ec/blobs/framing.rs"]}
{"id": "C66", "title": "Packed field elements are canonical", "statement": "Every 32-byte word written to a blob is a field element below the BLS modulus; packing never fails with InvalidFieldElement.", "quantifier": "all byte strings", "why_tests_cant": "all 254-bit values", "anchors": ["ethereum-consensus/src/bin/ec/blobs/encode.rs: field_element_from_bits"]}
{"id": "C67", "title": "Sized framing never panics", "statement": "payload_from_sized returns the payload or an error for every byte string.", "quantifier": "all byte strings", "why_tests_cant": "narrow range of declared sizes", "anchors": ["ethereum-consensus/src/bin/ec/blobs/framing.rs: payload_from_sized"]}
{"id": "C68", "title": "Identifier text round-trips", "statement": "Parsing the printed form of a StateId gives the same StateId; same for Network names.", "quantifier": "all identifiers", "why_tests_cant": "all slots and roots", "anchors": ["beacon-api-client/src/types.rs: StateId", "ethereum-consensus/src/networks.rs: Network"]}
{"id": "C69", "title": "Signing, verification and aggregation agree", "statement": "A signature made with a secret key (plain or over an object and a domain) verifies under its public key, is the only one that does, and does not verify for another message unless the two hash to one curve point. Aggregating signatures of any set of keys on one message, or on a message each, gives a signature the corresponding aggregate check accepts; checking against the aggregate key and against the list of keys agree; order is irrelevant; aggregating nothing is an error and only the infinity signature passes for an empty sync committee.", "quantifier": "all secret keys, messages, objects, domains and key lists of any length, over any groups and pairing with the textbook laws", "why_tests_cant": "quantifies over all keys, messages and list lengths; tests sign a few random messages", "anchors": ["ethereum-consensus/src/crypto/bls.rs: verify_signature, aggregate, aggregate_verify, fast_aggregate_verify, eth_aggregate_public_keys, eth_fast_aggregate_verify", "ethereum-consensus/src/signing.rs: compute_signing_root, sign_with_domain, verify_signed_data", "ethereum-consensus/src/builder/mod.rs: compute_builder_domain"]}
{"id": "C70", "title": "Genesis", "statement": "A genesis state is built from a deposit list only if every deposit's Merkle proof verifies against the root of the deposits so far. It then has exactly one validator per key that made a correctly signed first deposit, in order; later deposits for the key add to its balance whatever their signature; other deposits are ignored. Effective balance is the rounded-down, capped balance; a validator is active from epoch 0 iff that is the maximum. All other fields have their genesis values, and the state counts as valid genesis exactly when the time and active-validator-count thresholds are met.", "quantifier": "all deposit lists", "why_tests_cant": "all deposit lists", "anchors": ["ethereum-consensus/src/phase0/genesis.rs: initialize_beacon_state_from_eth1, is_valid_genesis_state", "ethereum-consensus/src/{altair,bellatrix,capella,deneb,electra}/genesis.rs"]}
{"id": "C71", "title": "Merkle branch proofs", "statement": "Deposit and blob-sidecar inclusion proofs are checked with the leaf, depth, index and root the protocol prescribes (deposit data root at the next deposit index under the recorded deposit root, depth 33; commitment root at its generalized index under the block body root); the outcome is that of the external Merkle check on exactly those arguments.", "quantifier": "all leaves, branches, indices, roots", "why_tests_cant": "all byte strings", "anchors": ["ethereum-consensus/src/phase0/block_processing.rs: process_deposit", "ethereum-consensus/src/deneb/blob_sidecar.rs: verify_blob_sidecar_inclusion_proof"]}
{"id": "C72", "title": "EIP-2333 keys and keystores", "statement": "Derived secret keys are non-zero and below the modulus; the i-th generated key depends only on seed and i; a keystore decrypts to the key that was encrypted.", "quantifier": "all seeds, indices, any KDF", "why_tests_cant": "all seeds", "anchors": ["ethereum-consensus/src/bin/ec/validator/keys.rs", "ethereum-consensus/src/bin/ec/validator/keystores.rs"]}
{"id": "C73", "title": "Fork-generic containers decode to the right variant", "statement": "Reading, through a fork-generic type, the JSON of a container of fork f (state, block, body, payload, header or their blinded and signed forms) yields the variant of fork f; text that is no fork's container is refused.", "quantifier": "all containers of all kinds and forks, all field values, all texts", "why_tests_cant": "all objects", "anchors": ["ethereum-consensus/src/types/signed_beacon_block.rs", "ethereum-consensus/src/types/beacon_state.rs"]}
{"id": "C74", "title": "Slot and epoch processing of states of realistic size never panic", "statement": "From a state whose stake, balances, inactivity scores, queues and vector lengths are within the documented realistic bounds, processing empty slots up to the start of the next epoch succeeds in every fork (Ok, no panic, no wrap, in both builds); at the end of a sync committee period it never panics when someone is active. The electra bound on recent slashings is needed: with 4 million ETH slashed recently and 2048 ETH validators, the correlation penalty overflows and the checked build panics.", "quantifier": "all forks, both builds, all states within the bounds, all target slots up to the next epoch start", "why_tests_cant": "overflow and out-of-range indexing need extreme or unusual states, and every step of the transition contributes", "anchors": ["ethereum-consensus/src/phase0/slot_processing.rs", "ethereum-consensus/src/phase0/epoch_processing.rs", "ethereum-consensus/src/altair/epoch_processing.rs", "ethereum-consensus/src/electra/epoch_processing.rs", "process_slots", "process_epoch", "process_slashings"]}
{"id": "C75", "title": "Light-client generalized indices", "statement": "The exported generalized index constants address finalized root and sync committees in the state tree of the fork that exports them.", "quantifier": "all forks", "why_tests_cant": "layout constant vs field order", "anchors": ["ethereum-consensus/src/altair/light_client.rs", "ethereum-consensus/src/electra/spec/mod.rs", "ethereum-consensus/src/electra/beacon_state.rs"]}
{"id": "C76", "title": "Nothing irrevocable in a validator record is ever undone", "statement": "Through any sequence of block, slot and epoch processing calls and fork upgrades, successful or failing, a registered validator keeps its index and public key, stays slashed once slashed, keeps its eligibility, activation and exit epochs once set, never gets an earlier withdrawable epoch once exiting, and its withdrawal credentials only move from BLS key to execution address to compounding address with the address kept (the upgrade to electra may withdraw the eligibility of validators that were never activated, and nothing else).", "quantifier": "all states, all histories of calls, all forks", "why_tests_cant": "quantifies over every later history, including failing calls", "anchors": ["ethereum-consensus/src/phase0/state_transition.rs: state_transition", "ethereum-consensus/src/phase0/helpers.rs: initiate_validator_exit", "ethereum-consensus/src/electra/fork.rs: upgrade_to_electra"]}
{"id": "C77", "title": "What block and epoch processing cannot touch", "statement": "process_block never changes the slot, genesis data, fork record, justification and finality fields or the historical accumulators; process_epoch never changes slot, genesis data or fork record and only appends to the historical accumulators; state_transition keeps the sizes of all fixed-size vectors and never removes a validator; all of this also when the call fails.", "quantifier": "all states, blocks, forks and outcomes", "why_tests_cant": "frame condition over every input including failing ones", "anchors": ["ethereum-consensus/src/phase0/block_processing.rs: process_block", "ethereum-consensus/src/phase0/epoch_processing.rs: process_epoch", "ethereum-consensus/src/phase0/state_transition.rs: state_transition"]}
{"id": "C78", "title": "Slot stream", "statement": "A stream made from the clock yields slots in increasing order, never the same slot twice and never one that has not started yet, whatever the times at which it is polled.", "quantifier": "every genesis time, slot duration, and every sequence of (non-decreasing) times at which the runtime polls the stream", "why_tests_cant": "the interleavings of wall-clock readings with timer expirations are unbounded and cannot be enumerated by a test", "anchors": ["ethereum-consensus/src/clock.rs:SlotStream", "ethereum-consensus/src/clock.rs:Clock::into_stream"]}
{"id": "C79", "title": "Genesis times of the networks", "statement": "Every named network for which a configuration is built in has a genesis time, so that a clock can be built for it; inferring the genesis time from the configuration gives the same value on the test networks.", "quantifier": "all network values and build profiles", "why_tests_cant": "ranges over every network value, including the ones a test author forgot", "anchors": ["ethereum-consensus/src/state_transition/context.rs: Context::genesis_time, Context::clock", "ethereum-consensus/src/networks.rs: typical_genesis_time"]}
{"id": "C80", "title": "Order of processing", "statement": "An epoch transition runs exactly the steps of its fork in the protocol order (justification, inactivity, rewards, registry, slashings, eth1 reset, pending deposits and consolidations, effective balances, resets, historical, participation, sync committees), each from the state the previous one left, and stops with the result of the first failing step. A block does the same with header, withdrawals and payload, randao, eth1 vote, deposit count, every operation of the body in order, and the sync aggregate.", "quantifier": "all forks, states, blocks and operation lists", "why_tests_cant": "the order matters only for particular combinations of operations and states; the claim is about every block and every state", "anchors": ["ethereum-consensus/src/<fork>/epoch_processing.rs: process_epoch", "ethereum-consensus/src/<fork>/block_processing.rs: process_block, process_operations"]}
{"id": "C81", "title": "No block crashes the node", "statement": "Whatever a block contains, processing it returns: the block is accepted or an error is reported; no arithmetic overflow, out-of-range index or failed expectation aborts the program, in builds with and without overflow checks.", "quantifier": "all blocks within the size limits of their type, all states of realistic size, phase0 to deneb, both build profiles", "why_tests_cant": "blocks come from untrusted peers; the claim is about every block, and a single missed bound is a remote crash", "anchors": ["ethereum-consensus/src/<fork>/block_processing.rs: process_block and every operation", "ethereum-consensus/src/<fork>/helpers.rs"]}
{"id": "C82", "title": "No electra block crashes the node", "statement": "Whatever an electra block contains (withdrawal requests, deposit receipts, consolidations and everything older), processing it returns: the block is accepted or an error is reported, in builds with and without overflow checks.", "quantifier": "all electra blocks within the size limits of their type, all states of realistic size, both build profiles", "why_tests_cant": "blocks come from untrusted peers; the claim is about every block, and it is false in checked builds for a block shape that the official test vectors are run against in release mode only", "anchors": ["ethereum-consensus/src/electra/block_processing.rs: process_block, process_operations, process_consolidation", "ethereum-consensus/src/electra/helpers.rs: compute_exit_epoch_and_update_churn, compute_consolidation_epoch_and_update_churn"]}
{"id": "C83", "title": "Blocks process exactly the next deposits", "statement": "Before electra, an accepted block contains exactly the outstanding deposits (deposit count after its own eth1 vote minus deposits already processed, capped by the per-block limit); the k-th one is proven to be the k-th next leaf of the recorded deposit tree, and the processed count advances by their number. A body with another number of deposits is rejected without effect.", "quantifier": "all states, blocks and forks (the count before electra, leaves and index in all)", "why_tests_cant": "relates every number of outstanding deposits, limit and vote outcome to the block; a skipped deposit shows only in later blocks", "anchors": ["ethereum-consensus/src/<fork>/block_processing.rs: process_operations, process_deposit, process_eth1_data, process_block"]}
{"id": "C84", "title": "Importing a signed block does not crash the node", "statement": "state_transition, applied to any signed block of the current or the next epoch, returns: it accepts the block or reports an error. In particular the state that the epoch transition leaves behind is again fit for block processing.", "quantifier": "all blocks within the size limits of their type (any content, proposer, signature and state root, with and without validation), all states of realistic size, both build profiles (electra builds with overflow checks: blocks without consolidations, see C82), all forks, inside an epoch and across one epoch boundary", "why_tests_cant": "combines every block content with every state an epoch transition can produce; a crash needs one combination of balances, queues and committee membership that no vector contains", "anchors": ["ethereum-consensus/src/<fork>/state_transition.rs: state_transition, state_transition_block_in_slot", "ethereum-consensus/src/<fork>/slot_processing.rs: process_slots, process_slot", "ethereum-consensus/src/<fork>/epoch_processing.rs: process_epoch", "ethereum-consensus/src/<fork>/block_processing.rs: process_block"]}
{"id": "C85", "title": "The API client asks for what its caller asked for", "statement": "For every method of the beacon API client and every argument, the HTTP request that is sent (method, path, query, version header, body) is one that a node implementing the beacon API reads as exactly that call with exactly those arguments. Hence two different calls never send the same request.", "quantifier": "all client methods, all identifiers, numbers, byte strings, filters, bodies and base paths that end in a slash", "why_tests_cant": "the client has no server to test against in the repository; an endpoint, separator or argument order that is wrong for one combination of optional filters goes unnoticed", "anchors": ["beacon-api-client/src/api_client.rs: every method of Client", "beacon-api-client/src/types.rs: Display of StateId, BlockId, ValidatorStatus, PublicKeyOrIndex, PeerState, ConnectionOrientation"]}
{"id": "C86", "title": "Requests stay below the endpoint", "statement": "Every request goes to a path below the path of the endpoint the client was created with.", "quantifier": "all client methods, arguments and endpoint paths", "why_tests_cant": "the usual endpoint is the root of a server, where nothing is lost; the property is about all the other endpoints", "anchors": ["beacon-api-client/src/api_client.rs: http_get, http_post, get_peer, get_events"]}
{"id": "C87", "title": "Responses are read faithfully", "statement": "A GET method returns a value only if it is the decoded data of the response (with a known fork name where the response is versioned, with the dependent root where duties have one); an error object of the API becomes that error with its code, message and failures; posted objects are reported as accepted exactly for the statuses 200 and 202; the health status follows the HTTP status. Responses in the form the API prescribes are readable.", "quantifier": "all response bodies, statuses and requested types", "why_tests_cant": "ranges over every JSON value a server may send; untagged decoding makes the result depend on which variant happens to fit first", "anchors": ["beacon-api-client/src/api_client.rs: get, api_error_or_ok, api_error_or_value, get_attester_duties, get_health, get_beacon_header_at_head, get_randao, get_light_client_updates", "beacon-api-client/src/api_error.rs: ApiError", "beacon-api-client/src/types.rs: Value, VersionedValue, ApiResult"]}
{"id": "C88", "title": "Fork-generic containers behave like the fork's own container", "statement": "For the fork-generic states, blocks, bodies and payloads (owned, shared and exclusive views): reading a field gives exactly the field of the wrapped container, nothing if that fork lacks the field; writing through a mutable accessor changes that field only; nested containers come back as the same fork; version() and the per-fork casts tell the fork; converting a reference keeps the fork.", "quantifier": "all 9 types, 3 views, 672 accessors, all values and forks phase0 to deneb", "why_tests_cant": "one wrong arm among several thousand concerns one field of one fork in one view, with any value", "anchors": ["ethereum-consensus/src/types/*.rs: every pub fn and From impl"]}
{"id": "C89", "title": "A validator's epochs keep their order in every reachable state", "statement": "In every state obtained from a genesis state by any sequence of calls (block imports, slot, block and epoch processing, upgrades; failed calls included), each validator has eligibility epoch <= activation epoch <= exit epoch <= withdrawable epoch <= FAR_FUTURE_EPOCH, was activated strictly before it exits, and has an exit epoch if it is slashed; and the justified and finalized checkpoints are not in the future.", "quantifier": "all genesis inputs, all histories of calls with any outcome, all forks, in builds with overflow checks; without them a witness shows that a consolidation breaks it", "why_tests_cant": "an order violation needs a particular interleaving of deposits, activations, slashings, exits and consolidations over many epochs", "anchors": ["phase0/helpers.rs: initiate_validator_exit, slash_validator", "electra/helpers.rs: initiate_validator_exit, compute_exit_epoch_and_update_churn", "phase0/epoch_processing.rs: process_registry_updates", "electra/block_processing.rs: process_consolidation", "phase0/genesis.rs: initialize_beacon_state_from_eth1", "*/fork.rs: upgrade_to_*"]}
{"id": "C90", "title": "No reachable state holds a dangling reference or an incomplete committee", "statement": "In every reachable state the queues of pending deposits, partial withdrawals and consolidations name registered validators only, the next withdrawal sweep starts inside the registry, both sync committees have their full size and consist of keys of registered validators, the fixed-size vectors have their size, and effective balances are multiples of the increment within the cap of the fork.", "quantifier": "all genesis inputs, all histories of calls with any outcome, all forks, both builds", "why_tests_cant": "a stale index or a committee with an unregistered key panics only when it is used, possibly days after the call that stored it", "anchors": ["electra/block_processing.rs: apply_deposit, process_execution_layer_withdrawal_request, process_consolidation", "capella/block_processing.rs: process_withdrawals", "altair/helpers.rs: get_next_sync_committee", "*/fork.rs: upgrade_to_*", "*/genesis.rs"]}
{"id": "C91", "title": "A block never crashes a node whose state is reachable", "statement": "If the state was reached from a genesis state by any history of calls and its amounts are realistic (numbers far below 2^64, processed deposits not above the adopted count), then processing or importing a block of the same epoch returns: it is accepted or rejected, never a panic.", "quantifier": "all histories, all blocks that fit their SSZ type, all forks, both builds (electra with overflow checks: blocks without consolidations)", "why_tests_cant": "a crash needs one particular combination of history and block", "anchors": ["state_transition.rs: state_transition", "*/block_processing.rs: process_block"]}
{"id": "C92", "title": "Selection odds follow the stake", "statement": "When the proposer of a slot or the members of the next sync committee are drawn, a drawn candidate is accepted by a number of the 256 random-byte values proportional to its effective balance relative to the largest effective balance the fork allows: all 256 at the maximum, half of them at half the maximum. Two validators with different effective balances therefore have correspondingly different chances.", "quantifier": "all states, seeds, registries and effective balances, all forks, both shuffling build variants", "why_tests_cant": "The odds are a statement about all random values and all balances; a test sees one draw for one seed, where a wrong scale usually gives the same answer.", "anchors": ["ethereum-consensus/src/phase0/helpers.rs: compute_proposer_index, sample_proposer_index", "ethereum-consensus/src/altair/helpers.rs: get_next_sync_committee_indices", "ethereum-consensus/src/electra/spec/mod.rs: sample_proposer_index, get_next_sync_committee_indices", "ethereum-consensus/src/electra/presets/mainnet.rs: MAX_EFFECTIVE_BALANCE_ELECTRA"]}
{"id": "C93", "title": "Containers survive being written as JSON and read back", "statement": "For every consensus container and every beacon-API response type with derived JSON, writing a value and reading the text back yields the same value, through every deserializer; two different values never have the same text; whatever is read has integers within their types and lists, vectors and byte strings of a permitted length; the order of members does not matter, unknown members are ignored, and an object with a missing or repeated member is refused.", "quantifier": "all 124 container types of the crates, all values of them, all JSON documents, all values of the preset constants, borrowed and owned string sources", "why_tests_cant": "The property ranges over every value and every document, and over combinations of field attributes and deserializers; round-trip tests cover a few samples with one deserializer.", "anchors": ["ethereum-consensus/src/serde.rs: as_hex, as_str, seq_of_str", "ethereum-consensus/src/ssz/byte_list.rs, byte_vector.rs", "ethereum-consensus/src/*/{beacon_state,beacon_block,operations,light_client}.rs: serde attributes", "beacon-api-client/src/types.rs"]}
{"id": "C94", "title": "JSON text follows the beacon API", "statement": "Every container is written exactly as the beacon API prescribes - integers as decimal strings, bytes as 0x-prefixed hexadecimal, members named and ordered as in the specifications - and every text the API permits for a value is read as that value.", "quantifier": "all 124 container types, all values, all permitted texts of a value (either hexadecimal case, leading zeros, any member order)", "why_tests_cant": "A missing attribute on one field makes the library consistent with itself and inconsistent with every other node; only a comparison with the prescribed form over all fields shows it.", "anchors": ["ethereum-consensus/src/altair/light_client.rs: LightClientUpdate.signature_slot", "ethereum-consensus/src/altair/validator.rs: SyncAggregatorSelectionData", "ethereum-consensus/src/electra/beacon_state.rs: ExecutionLayerWithdrawalRequest", "ethereum-consensus/src/serde.rs"]}
{"id": "C95", "title": "Honest voting pays and issuance is bounded", "statement": "In the rewards step of an epoch transition a validator that voted in time for source, target and head never loses balance, even while finality is late; a validator that did not vote never gains and loses at least its source and target penalties; while finality is late nobody gains (altair and later); of two validators alike in balance, stake and score the one that voted better ends no poorer; and the total of all balances grows by at most the voters' share of the reward units, hence by at most 54/64 of the reward units of the active stake when the voters hold no more than it.", "quantifier": "all states past the genesis epoch whose sums fit in 64 bits, all validators, all forks, leak or not", "why_tests_cant": "Incentive inequalities compare outcomes over all balances, participation patterns and leak lengths; tests check single numbers.", "anchors": ["ethereum-consensus/src/altair/epoch_processing.rs: process_rewards_and_penalties", "ethereum-consensus/src/altair/helpers.rs: get_flag_index_deltas", "ethereum-consensus/src/phase0/epoch_processing.rs: get_attestation_deltas"]}
{"id": "C96", "title": "Duties are fixed in advance", "statement": "Whatever blocks, slots and upgrades follow, the set of validators active in an epoch is decided MAX_SEED_LOOKAHEAD epochs ahead and the committees of every slot MIN_SEED_LOOKAHEAD epochs ahead: get_beacon_committee gives the same answer for such a slot in every later state that still holds its seed. The proposers of the remaining slots of an epoch do not change during the epoch.", "quantifier": "all states, all later histories (failed calls included), all slots and committee indices, in builds with overflow checks", "why_tests_cant": "A registry change, exit queue or randao write that reached an epoch too early would alter duties only on particular histories; stability over every history is not testable.", "anchors": ["ethereum-consensus/src/phase0/helpers.rs: get_beacon_committee, get_beacon_proposer_index, get_seed, compute_activation_exit_epoch", "ethereum-consensus/src/phase0/block_processing.rs: process_randao", "ethereum-consensus/src/phase0/epoch_processing.rs: process_randao_mixes_reset, process_registry_updates"]}
{"id": "C97", "title": "Recorded votes stay valid", "statement": "In every phase0 state of a chain, each recorded attestation still names an existing committee of its slot with one bit per member, belongs to the epoch of the list it is in, and was included by an existing validator at least one slot after its slot; and in every state of a chain the finalized, previous justified and current justified epochs are ordered and in the past, so that an epoch becomes justified only with two thirds of the active stake.", "quantifier": "all genesis states and all chains of successful slot processing, blocks with any outcome, and fork upgrades", "why_tests_cant": "The epoch transition indexes committees by attestations recorded up to two epochs earlier; that registry and randao changes in between never break the match is a statement about all chains.", "anchors": ["ethereum-consensus/src/phase0/block_processing.rs: process_attestation", "ethereum-consensus/src/phase0/epoch_processing.rs: process_participation_record_updates, process_justification_and_finalization", "ethereum-consensus/src/phase0/helpers.rs: get_attesting_indices"]}
{"id": "C98", "title": "Crossing an epoch never crashes a node that follows a chain", "statement": "From every state reached from a genesis state by slot processing, blocks and upgrades, importing any block of the next epoch (valid or not) does not panic, given only that numbers are of realistic size.", "quantifier": "all chains from all genesis states, all blocks of the next epoch that fit their SSZ type, all forks (electra with overflow checks: blocks without consolidations)", "why_tests_cant": "The epoch transition runs over the whole state with unchecked indexing and arithmetic; only an invariant over all chains shows that no state makes it panic.", "anchors": ["ethereum-consensus/src/phase0/state_transition.rs: state_transition", "ethereum-consensus/src/phase0/slot_processing.rs: process_slots", "ethereum-consensus/src/deneb/epoch_processing.rs: process_epoch"]}
{"id": "C99", "title": "Electra queues deposits and accounts for every unit", "statement": "In electra a deposit with a valid proof and signature, and an execution-layer deposit receipt with a valid signature, put exactly the deposited amount at the end of the deposit queue for the holder of the key; a new key is appended with zero balance and zero effective balance; a compounding deposit for a validator with eth1 credentials switches it to compounding and queues its excess; the first receipt fixes the start index. Balances plus queue grow by exactly the amount and no balance goes up. Any other deposit or receipt is an error.", "quantifier": "all electra states with aligned lists, all deposits and receipts, all hash and signature schemes", "why_tests_cant": "all registries, amounts and credential kinds; the accounting identity is over the whole registry and queue", "anchors": ["ethereum-consensus/src/electra/block_processing.rs: apply_deposit, add_validator_to_registry, process_deposit_receipt", "ethereum-consensus/src/electra/helpers.rs: switch_to_compounding_validator, queue_excess_active_balance"]}
{"id": "C100", "title": "Finality cannot be contradicted unless a third of the stake is slashable", "statement": "If a node that follows one chain finalizes an epoch, and a node that follows another chain from the same genesis, without a common checkpoint in that epoch and the next two, justifies that epoch or a later one (in particular finalizes one), then there are validators with at least a third of the stake (up to the amount by which stakes moved meanwhile), each of whom signed two votes, one on each chain, that are a valid slashing: a double vote or a surround vote.", "quantifier": "all pairs of chains of any length from any genesis, over slots, accepted and rejected blocks and upgrades, all forks, all hash and signature schemes, all stake distributions that stay within a given drift of a table", "why_tests_cant": "It is a statement about every pair of histories; a test can only replay some forks, and the argument depends on every path by which a vote can enter the justification count.", "anchors": ["ethereum-consensus/src/phase0/epoch_processing.rs: process_justification_and_finalization, weigh_justification_and_finalization", "ethereum-consensus/src/altair/epoch_processing.rs: process_justification_and_finalization", "ethereum-consensus/src/phase0/block_processing.rs: process_attestation", "ethereum-consensus/src/altair/block_processing.rs: process_attestation", "ethereum-consensus/src/electra/block_processing.rs: process_attestation", "ethereum-consensus/src/phase0/helpers.rs: is_slashable_attestation_data"]}
{"id": "C101", "title": "Nobody is credited for a vote they did not sign", "statement": "Every participation flag of a state reached from genesis (in phase0: every committee member named by a recorded aggregate) belongs to a validator who is among the signers of an aggregate that verified on that chain, for that epoch, with the justified checkpoint as source and, for the target and head flags, the block recorded at the start of that epoch as target. Every justified or finalized checkpoint after genesis is a block the chain records at the start of its epoch, and validators with two thirds of the stake (up to drift) signed votes for it.", "quantifier": "all chains of any length from any genesis, over slots, accepted and rejected blocks and upgrades (including the altair upgrade that translates phase0 votes into flags), all forks, all validators", "why_tests_cant": "It ranges over every history: flags survive rejected blocks, epoch rotation and upgrades, and only an invariant shows that no path sets one without a signature.", "anchors": ["ethereum-consensus/src/phase0/block_processing.rs: process_attestation", "ethereum-consensus/src/altair/block_processing.rs: process_attestation", "ethereum-consensus/src/altair/fork.rs: upgrade_to_altair, translate_participation", "ethereum-consensus/src/altair/epoch_processing.rs: process_participation_flag_updates", "ethereum-consensus/src/phase0/epoch_processing.rs: process_participation_record_updates"]}
{"id": "C102", "title": "Two thirds of the stake can always finalize", "statement": "If during two epochs in a row validators with two thirds of the active stake get their votes for the current epoch's checkpoint recorded before the epoch ends, then the first of the two checkpoints is finalized and the second justified at the end of the second epoch. If the votes for three epochs in a row arrive only during the respective next epoch, the first of them, or a later one, is finalized by the end of the third delay. Conversely nothing but the end of an epoch moves the justified or finalized checkpoints, and at the end of an epoch they move by the textbook rules only, driven by the recorded votes alone.", "quantifier": "all states on any chain of slots, accepted and rejected blocks and upgrades from any genesis, all forks, any earlier history of justification (missed epochs, partial votes), any content of the epochs in between", "why_tests_cant": "The claim starts from every possible justification state and quantifies over everything that happens inside the epochs; tests walk a few rule combinations from clean states.", "anchors": ["ethereum-consensus/src/phase0/epoch_processing.rs: process_justification_and_finalization, weigh_justification_and_finalization", "ethereum-consensus/src/altair/epoch_processing.rs: process_justification_and_finalization", "ethereum-consensus/src/phase0/slot_processing.rs: process_slots", "ethereum-consensus/src/phase0/state_transition.rs: state_transition", "ethereum-consensus/src/altair/fork.rs: upgrade_to_altair"]}
{"id": "C103", "title": "Evidence of misbehaviour stays usable", "statement": "A vote that verified in some state of a chain keeps verifying in every later state of the chain: always within the same fork, and across one upgrade if its target lies before that upgrade. It verifies on any other chain of the same genesis and fork that has the signers registered with the same keys. Two conflicting votes that verify form an attester slashing that is accepted as evidence and slashes exactly the validators who signed both and are still slashable; in particular every validator found guilty when two chains finalize conflicting checkpoints can be slashed on either chain.", "quantifier": "all histories of calls (accepted, rejected or aborted) and all forks, all pairs of votes, all pairs of chains from the same genesis", "why_tests_cant": "It relates arbitrary earlier and later states of arbitrary histories, and two different chains; tests only check a slashing against the state in which it was built.", "anchors": ["ethereum-consensus/src/phase0/block_processing.rs: process_attester_slashing", "ethereum-consensus/src/phase0/helpers.rs: is_valid_indexed_attestation, get_domain, slash_validator", "ethereum-consensus/src/altair/fork.rs: upgrade_to_altair", "ethereum-consensus/src/electra/fork.rs: upgrade_to_electra"]}
{"id": "C104", "title": "The archive of past roots is complete and append-only", "statement": "In every state of a chain the archive (historical roots followed by historical summaries) has exactly one entry for every past period of SLOTS_PER_HISTORICAL_ROOT slots. The entry of a period stands for the hashes of the two vectors that list, slot by slot, the block root and the state root with which the chain left that slot; entries never change or move, also across the capella upgrade that changes their form. The roots of the last SLOTS_PER_HISTORICAL_ROOT slots can be looked up directly.", "quantifier": "all chains of any length from any genesis over slots, accepted and rejected blocks and upgrades, all forks, all periods and slots", "why_tests_cant": "A period is 8192 slots on mainnet; the claim is about every slot of every period of every chain and about what is not overwritten in between.", "anchors": ["ethereum-consensus/src/phase0/epoch_processing.rs: process_historical_roots_update", "ethereum-consensus/src/capella/epoch_processing.rs: process_historical_summaries_update", "ethereum-consensus/src/phase0/slot_processing.rs: process_slot", "ethereum-consensus/src/capella/fork.rs: upgrade_to_capella"]}
{"id": "C105", "title": "Sync committees are announced a whole period ahead", "statement": "Take any state of altair or a later fork and let the node go on in any way: slots, accepted or refused blocks, upgrades. As long as the node is in the same sync committee period, the current and the next sync committee do not change. In the following period the current committee is the one that was announced as the next one. Hence whoever knows the two committees of a state can check the sync aggregate of every block the node accepts up to the end of the following period: the aggregate is signed by the marked members of that known committee.", "quantifier": "all configurations with a positive number of slots per epoch and epochs per period, all start states of altair and later forks, all sequences of slots, blocks and upgrades of any length, all blocks", "why_tests_cant": "The committees are fields of a state that every epoch transition, block and upgrade could change, so the claim is about arbitrarily long histories; a test follows one.", "anchors": ["ethereum-consensus/src/altair/epoch_processing.rs: process_sync_committee_updates", "ethereum-consensus/src/altair/block_processing.rs: process_sync_aggregate", "ethereum-consensus/src/bellatrix/fork.rs: upgrade_to_bellatrix", "ethereum-consensus/src/capella/fork.rs: upgrade_to_capella", "ethereum-consensus/src/deneb/fork.rs: upgrade_to_deneb", "ethereum-consensus/src/electra/fork.rs: upgrade_to_electra"]}
{"id": "C106", "title": "The blocks of an epoch mint no more than their votes, reports and sync pay are worth", "statement": "Over any accepted blocks and empty slots within one epoch, in any fork, everything the validators own (balances plus queued deposits) grows by at most: the deposits the blocks bring in, one reporting reward per newly slashed validator, the sync committee's full pay once per block, and 1/448 of reward unit times flag weight for each participation flag credited for the first time. Repeating votes, however often, pays nothing: credited flags leave the pot of votes that can still be credited, and the pot never exceeds 54 times the reward units of the active validators of two epochs.", "quantifier": "all forks, all states before the far future epoch, all sequences of blocks and empty slots within one epoch, checked builds", "why_tests_cant": "A leak of value needs a combination of operations, repeated votes, slashings and top-ups that no fixed set of blocks covers; the bound ranges over all sequences of all blocks.", "anchors": ["ethereum-consensus/src/altair/block_processing.rs: process_attestation, process_sync_aggregate", "ethereum-consensus/src/phase0/helpers.rs: slash_validator, increase_balance, decrease_balance", "ethereum-consensus/src/electra/block_processing.rs: process_operations, process_deposit_receipt", "ethereum-consensus/src/capella/block_processing.rs: process_withdrawals"]}
{"id": "C107", "title": "The end of an epoch mints no more than the timely voters' share, and nothing while finality is late", "statement": "Processing the end of an epoch (altair and later) adds to everything the validators own at most the reward units of the active stake times 14/64, 26/64 and 14/64 times the squared share of stake that voted in time for source, target and head; penalties, slashings, credited deposits and consolidations add nothing. If finality is late after the transition, the total does not grow at all.", "quantifier": "all forks from altair, all states within the stated bounds, both leak and no leak, checked builds", "why_tests_cant": "The total depends on every validator's balance, flags and the interaction of rewards, slashings, the deposit queue and consolidations; a test fixes one registry.", "anchors": ["ethereum-consensus/src/altair/epoch_processing.rs: process_rewards_and_penalties", "ethereum-consensus/src/electra/epoch_processing.rs: process_pending_balance_deposits, process_pending_consolidations, process_epoch", "ethereum-consensus/src/phase0/epoch_processing.rs: process_slashings"]}
{"id": "C108", "title": "Only the guilty are slashed", "statement": "A validator that is slashed in a state reached by processing blocks (accepted or rejected), slots and upgrades was slashed at the start, or one of the processed blocks contains evidence against it, checked against the state the block was applied to: two different headers for one slot, both signed with the validator's recorded key, or two conflicting votes that both name the validator and carry valid aggregate signatures. Advancing slots, with all epoch processing, slashes nobody.", "quantifier": "all forks, configurations with nonzero preset constants, starting states, and sequences of blocks with any contents and any outcome, slots and upgrades; all validators", "why_tests_cant": "A test shows that particular invalid slashings are rejected; that no combination of operations, no epoch processing and no rejected block slashes an innocent validator is a statement about all histories.", "anchors": ["ethereum-consensus/src/electra/block_processing.rs: process_proposer_slashing, process_attester_slashing", "ethereum-consensus/src/electra/helpers.rs: slash_validator", "ethereum-consensus/src/phase0/helpers.rs: is_slashable_attestation_data, is_valid_indexed_attestation", "ethereum-consensus/src/state_transition/mod.rs: Executor"]}
{"id": "C109", "title": "Nobody is made to exit without cause", "statement": "A validator with an exit epoch in a state reached by processing blocks, slots and upgrades had one at the start, or at some step of the chain it got one because: a block convicted it (C108), contained a voluntary exit signed with its key, contained a full-exit request from the address in its withdrawal credentials, or contained a consolidation of it into another validator signed with both keys; or an epoch ended while it was active with an effective balance at or below the ejection balance.", "quantifier": "all forks, configurations with nonzero preset constants, starting states, and sequences of blocks with any contents and any outcome, slots and upgrades; all validators", "why_tests_cant": "Exits are initiated from seven places; that none of them, in any interleaving, lets somebody else make a validator exit is a statement about all histories.", "anchors": ["ethereum-consensus/src/electra/block_processing.rs: process_voluntary_exit, process_execution_layer_withdrawal_request, process_consolidation", "ethereum-consensus/src/electra/helpers.rs: initiate_validator_exit", "ethereum-consensus/src/electra/epoch_processing.rs: process_registry_updates"]}
{"id": "C110", "title": "Withdrawal credentials change only on request of the owner", "statement": "On any chain of blocks, slots and upgrades the withdrawal credentials of a validator change only because a block contained a change signed with the withdrawal key that the old credentials commit to, a block contained a deposit with compounding credentials signed with the validator's own key (which keeps the address), or the validator is the target of a queued consolidation when an epoch ends (which keeps the address). Once credentials name an address, the address never changes. Every queued consolidation was in the queue at the start or was asked for in a block signed with the keys of both validators.", "quantifier": "all forks, configurations with nonzero preset constants, starting states, and sequences of blocks with any contents and any outcome, slots and upgrades; all validators and queued consolidations", "why_tests_cant": "Where the stake is paid out must not be changeable by anybody else through any sequence of operations; tests sample a few.", "anchors": ["ethereum-consensus/src/capella/block_processing.rs: process_bls_to_execution_change", "ethereum-consensus/src/electra/helpers.rs: switch_to_compounding_validator", "ethereum-consensus/src/electra/block_processing.rs: apply_deposit, process_consolidation", "ethereum-consensus/src/electra/epoch_processing.rs: process_pending_consolidations"]}
{"id": "C111", "title": "Peer identifiers survive their text and byte forms", "statement": "Every peer identifier (a SHA-256 multihash, or an inlined key of at most 42 bytes) is read back unchanged from its bytes and from its base-58 text, different identifiers have different texts, everything that is read is of one of these kinds, and base-58 encoding and decoding follow the definition of base 58 for every byte string and every text.", "quantifier": "all digests, codes, byte strings and texts", "why_tests_cant": "The two unit tests use one identifier each; the conversion must be exact for every length, leading zeros included.", "anchors": ["ethereum-consensus/src/networking.rs: PeerId::to_base58, PeerId::to_bytes, PeerId::from_bytes, PeerId::from_multihash, PeerId::from_str, Serialize, Deserialize"]}
{"id": "C112", "title": "A peer identifier has one form", "statement": "Two different byte strings, or two different texts, are never read as the same peer identifier.", "quantifier": "all byte strings and texts", "why_tests_cant": "Tests read a few well-formed identifiers; the claim is about every byte string an attacker may send.", "anchors": ["ethereum-consensus/src/networking.rs: PeerId::from_bytes, PeerId::from_str"]}
{"id": "C113", "title": "Nobody joins the registry without a deposit signed with their key", "statement": "Every validator in the registry after any sequence of slots, epochs, blocks (with any outcome) and upgrades was in it at the start, at the same place and with the same key, or was added by one of the blocks, which has a deposit (or, in electra, a deposit receipt) for exactly that key carrying a signature that verifies under it.", "quantifier": "all configurations, forks, start states, blocks, outcomes and histories", "why_tests_cant": "Tests run single deposits; that no other path appends a validator, and that no path appends one whose key did not sign, is a statement about every operation in every history.", "anchors": ["ethereum-consensus/src/phase0/block_processing.rs: apply_deposit, process_deposit", "ethereum-consensus/src/electra/block_processing.rs: apply_deposit, process_deposit_receipt, add_validator_to_registry"]}
{"id": "C114", "title": "Nobody is activated without a full balance and a finalized place in line", "statement": "Along any sequence of slots, epochs, blocks and upgrades: a validator is put in line for activation only at the end of an epoch, only if it was not in line and has a full effective balance, and its place in line is the next epoch; it is given an activation epoch only at the end of an epoch, only if it had none and the epoch of its place in line is finalized in the resulting state, and the activation epoch is the current epoch plus one plus the lookahead. Blocks do neither, whatever their outcome.", "quantifier": "all sane configurations, forks, start states, blocks, outcomes and histories with slots below 2^56", "why_tests_cant": "The conditions are checked at one place; that nothing else sets these epochs, and that the finalized checkpoint used is the one the state ends up with, concerns all paths and histories.", "anchors": ["ethereum-consensus/src/phase0/epoch_processing.rs: process_registry_updates", "ethereum-consensus/src/electra/epoch_processing.rs: process_registry_updates", "ethereum-consensus/src/phase0/helpers.rs: is_eligible_for_activation, is_eligible_for_activation_queue", "ethereum-consensus/src/electra/fork.rs: upgrade_to_electra"]}
{"id": "C115", "title": "No block lowers a balance without cause", "statement": "Whatever the outcome of process_block, a validator whose balance is lower afterwards (1) is paid what is due to it by a withdrawal in the payload, to the address in its credentials, or (2) is convicted by valid evidence in the block, or (3) has a seat in the current sync committee for which the block carries no signature, or (4) in electra, is made compounding by a deposit signed with its own key, which moves its excess balance to the queue of deposits. In particular nothing a proposer puts in a block costs a third party anything otherwise, and no balance is dropped from the list. In electra this fails when partial withdrawals are queued: the code debits whichever validator the sweep is at.", "quantifier": "all sane configurations, forks, states (slot below 2^64-1), blocks, outcomes and validators, in builds with overflow checks", "why_tests_cant": "It concerns every combination of operations in one block, including blocks that fail half way; a test can only show particular debits.", "anchors": ["ethereum-consensus/src/phase0/block_processing.rs: process_operations", "ethereum-consensus/src/altair/block_processing.rs: process_sync_aggregate", "ethereum-consensus/src/capella/block_processing.rs: process_withdrawals", "ethereum-consensus/src/electra/block_processing.rs: get_expected_withdrawals, process_withdrawals", "ethereum-consensus/src/phase0/helpers.rs: slash_validator, increase_balance, decrease_balance", "ethereum-consensus/src/electra/helpers.rs: switch_to_compounding_validator, queue_excess_active_balance"]}
{"id": "C116", "title": "Whoever does their duty loses nothing, and on a chain of calls every loss has a cause", "statement": "From altair on, when an epoch ends (whatever the outcome of the call) a validator's balance is lower afterwards only if the validator owed votes for the previous epoch and lacks the timely source or the timely target flag, or is slashed, or (electra) has its balance moved by a pending consolidation; an unslashed validator with both flags never loses, leak or not. Between epochs advancing a slot changes no balance. Of the upgrades only that to electra lowers balances, and only those of validators not yet activated or compounding. Hence on every chain of calls (slots, blocks with any outcome, upgrades) from altair on without queued partial withdrawals, a validator whose balance is lower at the end than at the start had one of these causes, or one of those of C115, at some step.", "quantifier": "all environments, states, validators, blocks and chains of calls of any length (checked arithmetic)", "why_tests_cant": "a test replays one history; the claim excludes a loss without cause in every history", "anchors": ["ethereum-consensus/src/altair/epoch_processing.rs: process_rewards_and_penalties", "ethereum-consensus/src/altair/helpers.rs: get_flag_index_deltas, get_inactivity_penalty_deltas", "ethereum-consensus/src/electra/epoch_processing.rs: process_pending_consolidations, process_pending_balance_deposits", "ethereum-consensus/src/electra/fork.rs: upgrade_to_electra", "ethereum-consensus/src/deneb/spec/mod.rs: process_slots"]}
{"id": "C117", "title": "The execution chain is linked", "statement": "On any chain of calls from bellatrix on (slots, blocks with any outcome, upgrades), the head of the execution chain a state records is reached from the one recorded at the start by a chain of payloads: each builds on the block hash of the one before, has a later timestamp than all before it, and was in a block of the chain of calls that was the first for its slot; each carried the randomness of its epoch and the time of its slot, and was accepted by the execution engine together with the versioned hashes of the block's blobs and the block's parent root. Only the first may build on an unknown block, and only if the chain starts in bellatrix before the merge. A block, whatever its outcome, changes the recorded header only to that of its own payload.", "quantifier": "all environments, engines, blocks and chains of calls of any length (checked arithmetic)", "why_tests_cant": "the claim is about every history, including rejected and aborted blocks; tests replay single payloads", "anchors": ["ethereum-consensus/src/bellatrix/block_processing.rs: process_execution_payload, process_block", "ethereum-consensus/src/capella/block_processing.rs: process_execution_payload", "ethereum-consensus/src/deneb/block_processing.rs: process_execution_payload", "ethereum-consensus/src/electra/block_processing.rs: process_execution_payload", "ethereum-consensus/src/capella/fork.rs: upgrade_to_capella"]}
{"id": "C118", "title": "The randomness is what the proposers revealed", "statement": "On any chain of calls the randomness of the current epoch is that at the start with the hashes of RANDAO reveals mixed in (xor), one for each contributing block of the chain, at most one for each slot, each a signature of the proposer of that slot over the epoch; nothing else enters. The randomness recorded for a past epoch stays as it is while it is on record.", "quantifier": "all environments, states, blocks with any outcome, forks and chains of calls of any length (checked arithmetic)", "why_tests_cant": "unpredictability of duties rests on nobody but the proposers entering the mix in any history; a test checks one block", "anchors": ["ethereum-consensus/src/phase0/block_processing.rs: process_randao, process_block", "ethereum-consensus/src/phase0/epoch_processing.rs: process_randao_mixes_reset", "ethereum-consensus/src/phase0/slot_processing.rs: process_slots"]}
{"id": "C119", "title": "Along a chain, the deposit-contract view is what a majority of the blocks of one voting period chose", "statement": "On every chain of slot advances, blocks (accepted or not) and fork upgrades, the eth1 votes a state holds are exactly, in order, those left from the start (while the voting period is still the same) followed by the votes of blocks applied in the current voting period, at most one for each slot. An accepted block always adds its own vote and the vote is counted until the period ends. The recorded eth1 data is that at the start of the chain or one a block voted for at a moment when more than half of the slots of its period had votes for it, and an accepted block whose choice reaches that majority records it. Within one period that starts without votes the recorded data changes at most once.", "quantifier": "every configuration with a nonempty voting period, every fork, every chain of calls, every content of the blocks", "why_tests_cant": "a test applies a handful of votes; the claim is about every interleaving of votes, skipped slots, epoch ends, period ends, failed blocks and upgrades over unboundedly long chains", "anchors": ["ethereum-consensus/src/phase0/block_processing.rs: process_eth1_data", "ethereum-consensus/src/phase0/epoch_processing.rs: process_eth1_data_reset", "ethereum-consensus/src/phase0/slot_processing.rs: process_slots"]}
{"id": "C120", "title": "The record of slashed stake is, epoch by epoch, the stake of the validators slashed on the chain", "statement": "On every chain of slot advances, blocks (accepted or rejected, but not crashing) and fork upgrades, the entry of the slashings record for every epoch still on record is exactly the effective balance, at the moment of slashing, of the validators that became slashed on the chain in that epoch, plus what had been recorded when the chain started if it started in or after that epoch. A block changes only the entry of its own epoch. Once a chain is longer than the record, the sum of the record, from which the correlation penalty is computed, is the stake slashed on the chain within the epochs on record.", "quantifier": "every configuration, every fork, every chain of calls, every epoch on record, every set of slashings in the blocks", "why_tests_cant": "a test slashes a few validators and looks at one entry; the claim covers unbounded chains with epoch ends, wrap-around of the record, rejected blocks and upgrades", "anchors": ["ethereum-consensus/src/phase0/helpers.rs: slash_validator", "ethereum-consensus/src/electra/helpers.rs: slash_validator", "ethereum-consensus/src/phase0/epoch_processing.rs: process_slashings_reset", "ethereum-consensus/src/phase0/block_processing.rs: process_attester_slashing"]}
{"id": "C121", "title": "The chain credits the deposit contract's log, in order", "statement": "Along any chain of slots, accepted blocks and fork upgrades, the deposit counter advances by exactly the number of deposits in the accepted blocks. While every deposit-contract view on record along the chain is a snapshot of one contract log, the deposits credited are exactly the next entries of that log after the starting counter: none is skipped, repeated, reordered or made up, unless the hash function is broken (a collision, or a deposit whose hash tree root is the empty leaf). Hence two chains that start at the same counter and follow the same contract credit the same deposits, one sequence being an initial part of the other.", "quantifier": "every fork, every chain of slots, accepted blocks and upgrades of any length, every contract log and every deposit with any proof", "why_tests_cant": "The claim ranges over whole histories and over all possible Merkle branches, including forged ones; a test can only replay some honest deposits.", "anchors": ["ethereum-consensus/src/phase0/block_processing.rs: process_deposit", "ethereum-consensus/src/phase0/block_processing.rs: process_operations", "ethereum-consensus/src/electra/block_processing.rs: process_operations"]}
{"id": "C122", "title": "The withdrawals of a chain are numbered without gaps and pay what is due", "statement": "Along any chain of slots, accepted blocks and fork upgrades, the withdrawals in the payloads of the accepted blocks carry consecutive numbers: from the number on record at the start of the chain, or from 0 if the chain starts before capella. No number is used twice, and the state on top records the next number. In capella and deneb every withdrawal was due in the state its block was applied to: the validator's credentials name the address paid, and the amount is positive and is either the whole balance of a validator that is past its withdrawable epoch or the part of the balance above the maximum of a fully effective validator.", "quantifier": "every chain of slots, accepted blocks and upgrades of any length, in every fork, with any blocks", "why_tests_cant": "Numbers must stay unique over the entire life of the chain, across upgrades and blocks with full, partial and no withdrawals; the claim ranges over all registries and all payloads.", "anchors": ["ethereum-consensus/src/capella/block_processing.rs: process_withdrawals, get_expected_withdrawals", "ethereum-consensus/src/electra/block_processing.rs: process_withdrawals, get_expected_withdrawals", "ethereum-consensus/src/capella/fork.rs: upgrade_to_capella"]}
{"id": "C123", "title": "No validator with funds due is passed over for long", "statement": "In capella and deneb, while a validator has funds due for withdrawal, the number of accepted blocks that do not pay it, times the smaller of the withdrawal limit per block and the examination limit per block, stays below the size of the registry (16 validators per block on mainnet's preset, 4 on minimal's). This holds whatever comes between: empty slots, epoch transitions, deposits that add validators up to the stated bound, other validators' withdrawals, and the deneb upgrade.", "quantifier": "every validator, every chain of slots, accepted blocks and the capella-to-deneb upgrade, of any length, with any blocks and any registry", "why_tests_cant": "Starvation is a property of unbounded histories: the sweep pointer must make progress in every block, full or not, for all patterns of due validators and registry growth.", "anchors": ["ethereum-consensus/src/capella/block_processing.rs: process_withdrawals", "ethereum-consensus/src/capella/block_processing.rs: get_expected_withdrawals", "ethereum-consensus/src/deneb/fork.rs: upgrade_to_deneb"]}
{"id": "C124", "title": "No more validators leave per epoch than the churn limit", "statement": "Before electra, along any chain of slots, blocks (accepted or rejected) and fork upgrades, the number of validators whose exit is scheduled for any one epoch never exceeds the largest churn limit of the states of the chain, or what was already scheduled for that epoch at the start. It does not matter whether they leave voluntarily, are ejected for a low balance or are slashed. Hence in any stretch of n epochs at most n times the limit can leave, which bounds how fast the validator set can turn over.", "quantifier": "every chain of slots, blocks and upgrades of any length from phase0 to deneb, every epoch and every stretch of epochs", "why_tests_cant": "Exits come from four sources, many per block, over unbounded histories while the limit itself changes with the active set; the bound must survive every interleaving.", "anchors": ["ethereum-consensus/src/phase0/helpers.rs: initiate_validator_exit, get_validator_churn_limit", "ethereum-consensus/src/phase0/epoch_processing.rs: process_registry_updates", "ethereum-consensus/src/phase0/block_processing.rs: process_voluntary_exit, process_proposer_slashing, process_attester_slashing"]}
{"id": "C125", "title": "No more validators become active per epoch than the activation cap", "statement": "Before electra, along any chain of slots, blocks (accepted, rejected or interrupted) and fork upgrades, the number of validators that become active in any one epoch is at most the number scheduled for it at the start plus the largest activation cap (the churn limit; from deneb also at most the fixed maximum) of the states of the chain. An epoch further ahead than the lookahead gets nobody yet. Hence in a stretch of n epochs at most n times the cap can join.", "quantifier": "every chain of slots, blocks and upgrades of any length from phase0 to deneb, every epoch and every stretch of epochs", "why_tests_cant": "The bound must survive every history: that each epoch's activations are decided once and only once, and that nothing else (deposits, slashings, upgrades) schedules one, cannot be sampled.", "anchors": ["ethereum-consensus/src/phase0/epoch_processing.rs: process_registry_updates", "ethereum-consensus/src/deneb/epoch_processing.rs: process_registry_updates", "ethereum-consensus/src/deneb/helpers.rs: get_validator_activation_churn_limit", "ethereum-consensus/src/phase0/helpers.rs: get_validator_churn_limit"]}
{"id": "C126", "title": "A validator's inactivity score rises only when it misses votes", "statement": "Along any chain of slots, blocks and fork upgrades, the inactivity score of a validator (which sets how fast it loses stake while finality is late) rises by at most the fixed bias for each end of an epoch at which the validator had the duty to vote and is not credited with a timely target vote. A validator that misses none never sees its score rise, and it falls by at least one for every credited vote until it is zero.", "quantifier": "every chain of slots, blocks (with any outcome) and upgrades of any length, every fork, every validator", "why_tests_cant": "The score is an accumulator over the whole history, touched at every epoch; that no block, deposit, upgrade or other step of the epoch ever raises it is a statement about all histories.", "anchors": ["ethereum-consensus/src/altair/epoch_processing.rs: process_inactivity_updates", "ethereum-consensus/src/altair/helpers.rs: get_unslashed_participating_indices", "ethereum-consensus/src/altair/block_processing.rs: add_validator_to_registry", "ethereum-consensus/src/altair/fork.rs: upgrade_to_altair"]}
{"id": "C127", "title": "Voting weight changes only at the end of an epoch and then follows the balance", "statement": "Along any chain of slots, blocks (with any outcome) and fork upgrades, the effective balance of a registered validator is either the one it had at the start or the one it was given at the end of an epoch of the chain, or zero if it was taken back by the upgrade to electra, which does so only to validators never activated; and at the end of every epoch the effective balance of every validator exceeds its balance by no more than the downward margin, and falls short of it by no more than the upward margin unless it is at its cap. Within one epoch the total weight of the active validators, against which majorities are measured, is fixed, whatever the blocks contain.", "quantifier": "every chain of slots, blocks and upgrades of any length, every validator, every epoch end", "why_tests_cant": "That no operation of any block, with any outcome, moves a voting weight, and that after every possible epoch each validator is within the margins, is a statement about all histories and registries.", "anchors": ["ethereum-consensus/src/phase0/epoch_processing.rs: process_effective_balance_updates", "ethereum-consensus/src/electra/epoch_processing.rs: process_effective_balance_updates", "ethereum-consensus/src/phase0/slot_processing.rs: process_slots", "ethereum-consensus/src/phase0/block_processing.rs: process_block"]}
{"id": "C128", "title": "No validator's voting weight ever exceeds its cap", "statement": "Whatever calls are made on a state, in any order and with any outcome (transitions, slots, blocks, epochs, fork upgrades): if at the start every validator's effective balance is at most the cap and a whole number of increments, this holds of every validator at the end too, including those registered meanwhile and with the caps of the fork the state has reached (in electra the cap depends on the validator's credentials). The state built from deposits at genesis is such a start.", "quantifier": "every history of public calls of any length and outcome, every fork and upgrade, every validator; and every genesis from deposits before electra", "why_tests_cant": "The effective balance is written in deposits, genesis, epoch processing, upgrades; the bound must hold after every interleaving of them, with credentials that change on the way.", "anchors": ["ethereum-consensus/src/phase0/epoch_processing.rs: process_effective_balance_updates", "ethereum-consensus/src/electra/epoch_processing.rs: process_effective_balance_updates", "ethereum-consensus/src/phase0/block_processing.rs: get_validator_from_deposit", "ethereum-consensus/src/electra/fork.rs: upgrade_to_electra", "ethereum-consensus/src/phase0/genesis.rs: initialize_beacon_state_from_eth1"]}
{"id": "C129", "title": "Whoever has left never has a duty again", "statement": "Once a validator's exit is scheduled for some epoch, then whatever calls are made on the state, in any order and with any outcome, nobody with that validator's key is active in that epoch or a later one, neither under the old index nor by registering again with the same key. So it is never again a member of a committee of those epochs, nor the proposer.", "quantifier": "every history of public calls of any length and outcome, through every fork and upgrade, every validator with a scheduled exit, every later epoch, committee and slot", "why_tests_cant": "Deposits, credential changes, consolidations, upgrades and epoch processing all write the registry; that none of them ever brings a key back is a statement about all histories.", "anchors": ["ethereum-consensus/src/phase0/helpers.rs: initiate_validator_exit, get_active_validator_indices, get_beacon_committee, get_beacon_proposer_index", "ethereum-consensus/src/phase0/block_processing.rs: apply_deposit", "ethereum-consensus/src/electra/fork.rs: upgrade_to_electra"]}
