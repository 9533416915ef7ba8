{
 "C08": {
  "status": "proved",
  "note": "The exact effect is proved when the sum fits in 64 bits; C08_increase_overflow_refuted shows that release builds wrap on overflow (increase_balance uses the plain + operator)."
 },
 "C15": {
  "note": "Acceptance and effect are proved for the check the code performs; C15_service_time_refuted shows that the service-time check uses the activation-eligibility epoch instead of the activation epoch."
 },
 "C37": {
  "note": "C37_proposer_share_refuted: from altair on the computed proposer share of a whistleblower reward is always zero (integer division order)."
 },
 "C16": {
  "note": "Proved exactly when the tripled and doubled balances fit in 64 bits, and the ordering of checkpoints is proved without any bound; C16_wrapped_balances_refuted shows that release builds wrap the products and may justify without a supermajority."
 },
 "C20": {
  "note": "Proved for every state past slot 0. C20_genesis_refuted: at slot 0 the error path computes slot - 1, which panics in overflow-checked builds instead of returning the error."
 },
 "C27": {
  "note": "Proved exactly for phase0 to deneb. C27_electra_topup_refuted and C27_electra_invalid_signature_refuted: electra turns an invalid deposit signature into a block error, also for top-ups."
 },
 "C43": {
  "note": "Proved for capella and deneb. C43_electra_pointer_refuted: electra moves the sweep pointer past the last withdrawal's index instead of past its validator."
 },
 "C54": {
  "note": "Refuted: electra's pending partial withdrawals debit the validator at the sweep pointer, and skipped entries are not removed from the queue."
 },
 "C71": {
  "note": "Deposits: exact arguments and one leaf per index up to hash collisions. Blob sidecars: acceptance iff the external branch check accepts the commitment at field 11 / element index of the body tree; honest branches are accepted and any other leaf needs a hash collision (the external check is a hypothesis, branch_check)."
 },
 "C49": {
  "note": "What the code computes is proved exactly; C49_exceeds_limit_refuted: the consolidation queue is limited by the activation/exit churn instead of the consolidation churn."
 },
 "C55": {
  "note": "Proved for one committee bit. C55_two_committees_refuted: with several committees the bits of later committees are read at the wrong offset (the committee's position instead of the summed sizes)."
 },
 "C56": {
  "note": "Refuted: a misplaced else makes every electra block fail while eth1 deposits are outstanding, and skips the count check afterwards."
 },
 "C57": {
  "note": "Rejection of invalid consolidations and the exact coded effect are proved. Refuted: the withdrawable epoch is computed from the old exit epoch, so checked builds always panic and release builds wrap."
 },
 "C60": {
  "note": "C60_forks is an exact characterisation of successful application; C60_at_fork_slot_refuted shows that a state already at or past the next fork slot (for instance a genesis state of a network with the next fork at epoch 0) refuses every block of a later fork."
 },
 "C61": {
  "note": "Refuted: slots processed before the failure are kept, a header accepted before the failure blocks its slot, and a failure across a fork boundary leaves the executor unable to cross it. Only a bad signature at the same slot is proved harmless (C61_bad_signature_partial)."
 },
 "C78": {
  "note": "Order is proved for all polls; C78_duplicate_refuted gives a schedule on which the same slot is yielded twice; C78_strict_partial names the condition under which it is not."
 },
 "C68": {
  "note": "State and block identifiers, integers and the named networks are proved. C68_custom_network_refuted: a custom network is never read back from its own text (the text names the configuration file, and every unknown text is taken as a directory)."
 },
 "C79": {
  "note": "C79_hoodi_refuted: the built-in network Hoodi has no genesis time, so no clock can be built for it."
 },
 "C65": {
  "note": "The round trip is proved for every length except those where the framed data ends 1 to 31 bytes past a multiple of the blob capacity (130048 bytes). C65_data_loss_refuted: at those lengths the last bytes are silently replaced by zeros (the final Vec::resize truncates)."
 },
 "C67": {
  "note": "Acceptance is characterised exactly. C67_panic_refuted: a declared size exceeding the bytes after the header by 1 to 4 panics (out-of-range slice) instead of returning an error."
 },
 "C70": {
  "note": "Proved for phase0 to deneb (acceptance, registry, columns, every other field). Electra is refuted: the state starts with receipts start index 0 instead of the unset value, and one unsigned deposit aborts genesis. From altair on success also needs the sync committee sampling to end; that is a hypothesis-free conclusion only for phase0 (C70_phase0_succeeds)."
 },
 "C75": {
  "note": "Holds for altair to deneb states and capella to electra bodies. Refuted for electra: electra/spec/mod.rs re-exports the altair constants 105/54/55, but the electra state has 37 fields, so they address zero padding; C75_electra_should_be proves 169/86/87 are right."
 },
 "C72": {
  "note": "Key derivation equals EIP-2333/2334 for every seed and index, never panics, and is deterministic. Keystores open under EIP-2335 except when the low half of the initialization vector is all ones: the code labels the cipher aes-128-ctr but uses a 64-bit counter (Ctr64BE), C72_keystore_counter_refuted."
 },
 "C73": {
  "note": "Holds for phase0 to deneb (C73_variant, C73_newest). Refuted for electra, which the generic types do not know: electra text is read as deneb (C73_electra_refuted). Refuted for malformed text: a fork-specific field that does not decode makes the text an earlier fork's container instead of an error (C73_malformed_refuted). A full block's text is never read as a blinded one (C73_full_not_blinded), but every blinded block's text is accepted where a full block is read and becomes an altair block without payload (C73_blinded_read_as_altair_refuted)."
 },
 "C81": {
  "note": "Proved for phase0 to deneb, both builds, for every block and every state within the visible bounds (C81_block_no_panic). Without the hypothesis that adopted eth1 data does not undo processed deposits the claim is refuted: C81_deposit_count_underflow_refuted (checked builds panic on every later block); C81_unregistered_member_refuted shows that the sync committee must consist of registered validators."
 },
 "C82": {
  "note": "Release builds: proved for every block. Checked builds: proved for blocks without consolidations; a valid consolidation crashes there (C82_consolidation_block_refuted, general form C57_checked_build_refuted)."
 },
 "C84": {
  "status": "proved",
  "note": "Proved for every fork, inside an epoch (C84_same_epoch, C84_same_epoch_electra) and across one epoch boundary (C84_next_epoch, C84_next_epoch_electra; the state after the boundary is again within the bounds: C84_boundary_keeps_bounds, C84_boundary_keeps_bounds_electra). In electra builds with overflow checks the block must contain no consolidations: with one they do crash (C82). Not covered: blocks more than one epoch ahead."
 },
 "C85": {
  "note": "Proved for all methods (C85_requests for any base path ending in a slash, C85_requests_at_root for the two methods with absolute paths), except two calls, for which the property is refuted: get_blob_sidecars with indices never sends anything (serde_urlencoded refuses a sequence as a value), post_liveness with indices sends numbers where the API has strings."
 },
 "C86": {
  "note": "Proved for all methods but two and endpoints that end in a slash; refuted for get_peer and get_events (absolute paths) and for endpoints without the slash."
 },
 "C87": {
  "note": "Proved for values, errors, accepted posts, duties and health. Refuted: the status of a GET is ignored; the answers the API prescribes for header queries (a list), randao (an object) and light client updates (a list) cannot be read."
 },
 "C88": {
  "note": "Complete for the forks the types have (phase0 to deneb); the types have no electra variant."
 },
 "C89": {
  "note": "Proved for builds with overflow checks (C89_lifecycle, C89_checkpoints; from any well-formed state: C89_from). Refuted for builds without them: a block with a consolidation (C57) leaves a validator that is withdrawable before it exits (C89_release_refuted)."
 },
 "C90": {
  "note": "Proved for both builds and all forks. The cap on effective balances relies on limits every shipped network satisfies (C90_networks)."
 },
 "C91": {
  "status": "proved",
  "note": "C81, C82 and C84_same_epoch with all structural hypotheses discharged by reachability (C28, C89, C90); what remains are numeric bounds, the deposit count condition (C81 shows it cannot be dropped) and, in electra builds with overflow checks, the absence of consolidations (C82)."
 },
 "C92": {
  "note": "Proved up to deneb: the proposer and every sync-committee member is a winner of the stake-weighted lottery. Refuted in electra, for all states: the code keeps scaling by the old 32 ETH cap, so any change of effective balances above that cap leaves proposer and sync committee as they were; a validator with 2048 ETH is no likelier to be chosen than one with 32 ETH."
 },
 "C93": {
  "note": "Round trip, injectivity, validation, member order, missing and repeated members proved for all containers with readers that lend their strings (from_str, from_slice). Refuted for readers with owned strings (serde_json::from_reader, from_value): seq_of_str asks for &str, so every container holding a non-empty list of numbers (indexed attestations, slashings, blocks with attester slashings, all states) is refused; all other values round-trip there too."
 },
 "C94": {
  "note": "Proved for 113 of 124 containers. Refuted for the 11 in SpecCodec.exceptions, all light client updates among them: an integer lacks its as_str attribute, so every text the API permits is refused. Member names proved for all but ExecutionLayerWithdrawalRequest, whose public key is called pubkey instead of validator_pubkey: texts with the specified names are refused."
 },
 "C95": {
  "note": "Consequences of the exact balances of C32, stated on the function itself. The cap on issuance needs the voters' stake not to exceed the active stake; C95_issuance gives the bound without that hypothesis."
 },
 "C96": {
  "note": "Needs overflow checks: without them an epoch near 2^64 wraps around. C96_sharp shows the bound for committees cannot be raised."
 },
 "C97": {
  "note": "The statement about phase0 votes needs overflow checks (C96); the ordering of checkpoints holds in both builds."
 },
 "C98": {
  "note": "The structural hypotheses of C84 (vectors, alignment, references, committees, votes, order of checkpoints) are discharged for chain states; what remains are numbers (realistic, realistic_epoch)."
 },
 "C99": {
  "note": "Invalid signatures are block errors here, as recorded under C27; found by a seeded bug in add_validator_to_registry that no statement had caught."
 },
 "C100": {
  "note": "The stake table, the drift and the sizes are visible hypotheses; the fork is described by distinct block roots at the epoch starts, not by ancestry, so no assumption on the hash is needed. Runs with overflow checks."
 },
 "C101": {
  "note": "C101_justified_is_signed needs the stake table of C100; the two credit theorems need no stake hypothesis."
 },
 "C102": {
  "note": "The votes are those recorded in the state (C101 ties them to signatures, C84 and C98 to what an honest validator sends). Numeric bounds on sizes are visible in realistic_on."
 },
 "C103": {
  "note": "Votes older than two upgrades no longer verify, as the state keeps two fork versions only (same in the protocol)."
 },
 "C105": {
  "note": "Slots are below 2^56. The committee of the period in which altair starts serves and is announced as the next one at once, so the theorem holds from the upgrade on."
 },
 "C106": {
  "note": "The bound is an inequality: withdrawals, penalties and rounding only lower it. Checked builds (an overflow is a panic); release builds wrap and are not covered."
 },
 "C107": {
  "note": "Phase0 is not covered: its rewards are bounded per validator in C32 and C95. Builds on C95 for the rewards step; the state is within the bounds of C74."
 },
 "C108": {
  "note": "C108_block, C108_slot and, for whole chains, C108_only_the_guilty_are_slashed; all builds and all forks."
 },
 "C109": {
  "note": "C109_block, C109_slot and, for whole chains, C109_nobody_exits_without_cause; all builds and all forks. The address of a full-exit request is compared with the credentials as they are when the request is processed, which the same block may have set at the request of the withdrawal key."
 },
 "C110": {
  "note": "C110_block, C110_slot; for whole chains C110_credentials_change_only_on_request, C110_address_is_final and C110_consolidations_are_signed; all builds and all forks."
 },
 "C111": {
  "note": "The crates bs58, multihash and unsigned-varint are modelled from their published algorithms; they are not part of /repo. The code accepts digests of any length up to 64 under the SHA-256 code."
 },
 "C112": {
  "note": "Proved for headers of at most ten bytes (C112_one_form_partial). Refuted in general: a number written with ten bytes loses the bits beyond the 64th instead of being refused, so every identifier has another form (C112_other_form_refuted). Rests on the model of unsigned-varint, which is not part of /repo."
 },
 "C113": {
  "note": "The validators of the start state are those of genesis; their signatures are the subject of C70."
 },
 "C114": {
  "note": "A full balance is MAX_EFFECTIVE_BALANCE before electra and at least MIN_ACTIVATION_BALANCE in electra."
 },
 "C115": {
  "note": "C115_block is complete up to the visible hypothesis that electra's queue of partial withdrawals is empty; C115_queued_withdrawals_refuted shows that the claim fails in the code without it (same defect as C54)."
 },
 "C116": {
  "note": "Proved for altair and later with overflow checks on. Phase0 is left out: its deltas, which also depend on the inclusion delay, are stated exactly by other claims. The chain theorem assumes that no electra state on the chain has queued partial withdrawals, because of the defect recorded as C115_queued_withdrawals_refuted."
 },
 "C117": {
  "note": "Chains that start before bellatrix have no execution header at the start; the upgrade to bellatrix sets it to the default (C41). The engine is an oracle of the environment."
 },
 "C118": {
  "note": "The vector of mixes is assumed to have its SSZ length at the start."
 },
 "C119": {
  "note": "C119_block is the exact effect of an accepted block; C119_tally, C119_counted, C119_adopted and C119_one_change_per_period are over all walks, for builds with overflow checks. C119_one_change_per_period assumes the period starts without votes, which C119_tally shows of every period that starts on the chain."
 },
 "C120": {
  "note": "For builds with overflow checks. Blocks that make the code panic are excluded: the panic can happen between the flag and the record (an overflow of the entry), C81 gives bounds under which no block panics."
 },
 "C121": {
  "note": "All forks. Chains of accepted blocks (a rejected block's state is discarded). The Merkle check is the external ssz_rs function; the theorem assumes that it computes the branch root over 32-byte chunks (branch_check). The counter must stay below the tree's 2^32 leaves."
 },
 "C122": {
  "note": "Numbering in all forks, including electra's queued partial withdrawals; what is due in capella and deneb only, because electra debits the wrong validator for queued withdrawals (C54). Overflow-checked builds."
 },
 "C123": {
  "note": "Capella and deneb; electra computes the pointer from the withdrawal number (C43_electra_pointer_refuted), so the claim is not made there."
 },
 "C124": {
  "note": "Phase0 to deneb, overflow-checked builds; electra limits exits by balance instead (C48). The chain excludes calls that panic."
 },
 "C125": {
  "note": "Phase0 to deneb, overflow-checked builds; electra has no cap on activations at this step."
 },
 "C126": {
  "note": "All forks, checked and wrapping builds alike. Credit means the participation flag recorded in the state; C101 says who can get it."
 },
 "C127": {
  "note": "Builds with overflow checks. Needs the upward margin to be at least one increment, as on the networks."
 },
 "C128": {
  "note": "All forks, checked and wrapping builds alike for the histories. Needs the caps to be whole increments and ordered, proved of all six configurations in C128_networks."
 },
 "C129": {
  "note": "Any environment, checked and wrapping builds alike. The keys are unique at the start; C28 and C70 show this of reachable states."
 }
}