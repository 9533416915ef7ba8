{
 "claims": [
  {
   "property": "C01",
   "status": "proved",
   "theorems": [
    "C01_shuffle_permutation",
    "C01_shuffle_rejects",
    "C01_shuffle_reference"
   ],
   "note": ""
  },
  {
   "property": "C02",
   "status": "proved",
   "theorems": [
    "C02_optimised_shuffle"
   ],
   "note": ""
  },
  {
   "property": "C03",
   "status": "proved",
   "theorems": [
    "C03_committees_partition"
   ],
   "note": ""
  },
  {
   "property": "C04",
   "status": "proved",
   "theorems": [
    "C04_proposer_index",
    "C04_no_active",
    "C04_variants_agree"
   ],
   "note": ""
  },
  {
   "property": "C05",
   "status": "proved",
   "theorems": [
    "C05_slashable_votes"
   ],
   "note": ""
  },
  {
   "property": "C06",
   "status": "proved",
   "theorems": [
    "C06_indexed_attestation"
   ],
   "note": ""
  },
  {
   "property": "C07",
   "status": "proved",
   "theorems": [
    "C07_lifecycle"
   ],
   "note": ""
  },
  {
   "property": "C08",
   "status": "proved",
   "theorems": [
    "C08_increase_balance",
    "C08_decrease_balance",
    "C08_unknown_index",
    "C08_increase_overflow_refuted"
   ],
   "note": "The exact effect is proved when the sum fits in 64 bits; C08_increase_overflow_refuted shows that release builds wrap on overflow (increase_balance uses the plain + operator)."
  },
  {
   "property": "C09",
   "status": "proved",
   "theorems": [
    "C09_total_balance",
    "C09_total_active_balance"
   ],
   "note": ""
  },
  {
   "property": "C10",
   "status": "proved",
   "theorems": [
    "C10_already_exiting",
    "C10_initiate_exit",
    "C10_exit_sequence"
   ],
   "note": ""
  },
  {
   "property": "C11",
   "status": "proved",
   "theorems": [
    "C11_registry",
    "C11_queue_unique",
    "C11_activation_limit",
    "C11_ejection_churn"
   ],
   "note": ""
  },
  {
   "property": "C12",
   "status": "proved",
   "theorems": [
    "C12_slashed_forever",
    "C12_slashing_effect",
    "C12_slashing_shares_phase0"
   ],
   "note": ""
  },
  {
   "property": "C13",
   "status": "proved",
   "theorems": [
    "C13_attester_slashing",
    "C13_exactly_the_culpable"
   ],
   "note": ""
  },
  {
   "property": "C14",
   "status": "proved",
   "theorems": [
    "C14_proposer_slashing"
   ],
   "note": ""
  },
  {
   "property": "C15",
   "status": "partial",
   "theorems": [
    "C15_voluntary_exit_partial",
    "C15_service_time_refuted"
   ],
   "note": "Acceptance and effect are proved for the check the code performs; C15_service_time_refuted shows that the service-time check uses the activation-eligibility epoch instead of the activation epoch."
  },
  {
   "property": "C16",
   "status": "partial",
   "theorems": [
    "C16_weigh",
    "C16_process",
    "C16_weight_unique",
    "C16_epochs_never_decrease",
    "C16_overflow_checked",
    "C16_wrapped_balances_refuted"
   ],
   "note": "Proved exactly when the tripled and doubled balances fit in 64 bits, and the ordering of checkpoints is proved without any bound; C16_wrapped_balances_refuted shows that release builds wrap the products and may justify without a supermajority."
  },
  {
   "property": "C17",
   "status": "proved",
   "theorems": [
    "C17_supermajority",
    "C17_bits"
   ],
   "note": ""
  },
  {
   "property": "C18",
   "status": "proved",
   "theorems": [
    "C18_finalized_was_justified"
   ],
   "note": ""
  },
  {
   "property": "C19",
   "status": "proved",
   "theorems": [
    "C19_not_backwards",
    "C19_reaches_target",
    "C19_events",
    "C19_events_suffice",
    "C19_compose"
   ],
   "note": ""
  },
  {
   "property": "C20",
   "status": "partial",
   "theorems": [
    "C20_window",
    "C20_recorded",
    "C20_roots_exist",
    "C20_genesis_refuted"
   ],
   "note": "Proved for every state past slot 0. C20_genesis_refuted: at slot 0 the error path computes slot - 1, which panics in overflow-checked builds instead of returning the error."
  },
  {
   "property": "C21",
   "status": "proved",
   "theorems": [
    "C21_header_acceptance"
   ],
   "note": ""
  },
  {
   "property": "C22",
   "status": "proved",
   "theorems": [
    "C22_one_block_per_slot"
   ],
   "note": ""
  },
  {
   "property": "C23",
   "status": "proved",
   "theorems": [
    "C23_randao",
    "C23_mix_is_xor",
    "C23_reveal_twice"
   ],
   "note": ""
  },
  {
   "property": "C24",
   "status": "proved",
   "theorems": [
    "C24_eth1_vote",
    "C24_one_candidate_per_period"
   ],
   "note": ""
  },
  {
   "property": "C25",
   "status": "proved",
   "theorems": [
    "C25_attestation_phase0"
   ],
   "note": ""
  },
  {
   "property": "C26",
   "status": "proved",
   "theorems": [
    "C26_attesting_indices"
   ],
   "note": ""
  },
  {
   "property": "C27",
   "status": "partial",
   "theorems": [
    "C27_deposit",
    "C27_cases",
    "C27_electra_topup_refuted",
    "C27_electra_invalid_signature_refuted"
   ],
   "note": "Proved exactly for phase0 to deneb. C27_electra_topup_refuted and C27_electra_invalid_signature_refuted: electra turns an invalid deposit signature into a block error, also for top-ups."
  },
  {
   "property": "C28",
   "status": "proved",
   "theorems": [
    "C28_registry_aligned",
    "C28_registry_aligned_from",
    "C28_executor_histories"
   ],
   "note": ""
  },
  {
   "property": "C29",
   "status": "proved",
   "theorems": [
    "C29_update",
    "C29_idempotent",
    "C29_effective_balance_capped"
   ],
   "note": ""
  },
  {
   "property": "C30",
   "status": "proved",
   "theorems": [
    "C30_correlation_penalty",
    "C30_penalty_bounded"
   ],
   "note": ""
  },
  {
   "property": "C31",
   "status": "proved",
   "theorems": [
    "C31_periodic_updates"
   ],
   "note": ""
  },
  {
   "property": "C32",
   "status": "proved",
   "theorems": [
    "C32_only_eligible",
    "C32_genesis_epoch",
    "C32_altair_exact",
    "C32_not_eligible_formula",
    "C32_phase0_exact",
    "C32_voters_determined",
    "C32_first_vote_determined",
    "C32_phase0_untouched"
   ],
   "note": ""
  },
  {
   "property": "C33",
   "status": "proved",
   "theorems": [
    "C33_attestation_flags",
    "C33_flags_only_grow",
    "C33_repetition_pays_nothing"
   ],
   "note": ""
  },
  {
   "property": "C34",
   "status": "proved",
   "theorems": [
    "C34_scores",
    "C34_genesis_epoch"
   ],
   "note": ""
  },
  {
   "property": "C35",
   "status": "proved",
   "theorems": [
    "C35_rotation",
    "C35_members"
   ],
   "note": ""
  },
  {
   "property": "C36",
   "status": "proved",
   "theorems": [
    "C36_sync_aggregate"
   ],
   "note": ""
  },
  {
   "property": "C37",
   "status": "partial",
   "theorems": [
    "C37_share_is_zero_partial",
    "C37_proposer_share_refuted"
   ],
   "note": "C37_proposer_share_refuted: from altair on the computed proposer share of a whistleblower reward is always zero (integer division order)."
  },
  {
   "property": "C38",
   "status": "proved",
   "theorems": [
    "C38_upgrade_to_altair",
    "C38_always_preserved"
   ],
   "note": ""
  },
  {
   "property": "C39",
   "status": "proved",
   "theorems": [
    "C39_merge_predicates",
    "C39_before_the_merge"
   ],
   "note": ""
  },
  {
   "property": "C40",
   "status": "proved",
   "theorems": [
    "C40_payload"
   ],
   "note": ""
  },
  {
   "property": "C41",
   "status": "proved",
   "theorems": [
    "C41_upgrade_to_bellatrix",
    "C41_upgrade_to_capella",
    "C41_upgrade_to_deneb",
    "C41_upgrade_to_electra",
    "C41_electra_conserves"
   ],
   "note": ""
  },
  {
   "property": "C42",
   "status": "proved",
   "theorems": [
    "C42_sweep",
    "C42_list",
    "C42_due"
   ],
   "note": ""
  },
  {
   "property": "C43",
   "status": "partial",
   "theorems": [
    "C43_process",
    "C43_nobody_skipped",
    "C43_electra_pointer_refuted"
   ],
   "note": "Proved for capella and deneb. C43_electra_pointer_refuted: electra moves the sweep pointer past the last withdrawal's index instead of past its validator."
  },
  {
   "property": "C44",
   "status": "proved",
   "theorems": [
    "C44_bls_change",
    "C44_never_twice"
   ],
   "note": ""
  },
  {
   "property": "C45",
   "status": "proved",
   "theorems": [
    "C45_deneb_window"
   ],
   "note": ""
  },
  {
   "property": "C46",
   "status": "proved",
   "theorems": [
    "C46_deneb_cap",
    "C46_cap_reached"
   ],
   "note": ""
  },
  {
   "property": "C47",
   "status": "proved",
   "theorems": [
    "C47_versioned_hash"
   ],
   "note": ""
  },
  {
   "property": "C48",
   "status": "proved",
   "theorems": [
    "C48_exit_epoch",
    "C48_exit_churn"
   ],
   "note": ""
  },
  {
   "property": "C49",
   "status": "partial",
   "theorems": [
    "C49_as_coded_partial",
    "C49_exceeds_limit_refuted"
   ],
   "note": "What the code computes is proved exactly; C49_exceeds_limit_refuted: the consolidation queue is limited by the activation/exit churn instead of the consolidation churn."
  },
  {
   "property": "C50",
   "status": "proved",
   "theorems": [
    "C50_pending_deposits",
    "C50_prefix_unique"
   ],
   "note": ""
  },
  {
   "property": "C51",
   "status": "proved",
   "theorems": [
    "C51_consolidations",
    "C51_conserved",
    "C51_one_entry"
   ],
   "note": ""
  },
  {
   "property": "C52",
   "status": "proved",
   "theorems": [
    "C52_switch",
    "C52_reset"
   ],
   "note": ""
  },
  {
   "property": "C53",
   "status": "proved",
   "theorems": [
    "C53_requests",
    "C53_exclusive",
    "C53_floor"
   ],
   "note": ""
  },
  {
   "property": "C54",
   "status": "partial",
   "theorems": [
    "C54_debits_other_validator_refuted",
    "C54_served_entry_stays_refuted"
   ],
   "note": "Refuted: electra's pending partial withdrawals debit the validator at the sweep pointer, and skipped entries are not removed from the queue."
  },
  {
   "property": "C55",
   "status": "partial",
   "theorems": [
    "C55_one_committee_partial",
    "C55_two_committees_refuted"
   ],
   "note": "Proved for one committee bit. C55_two_committees_refuted: with several committees the bits of later committees are read at the wrong offset (the committee's position instead of the summed sizes)."
  },
  {
   "property": "C56",
   "status": "partial",
   "theorems": [
    "C56_outstanding_refuted",
    "C56_surplus_refuted"
   ],
   "note": "Refuted: a misplaced else makes every electra block fail while eth1 deposits are outstanding, and skips the count check afterwards."
  },
  {
   "property": "C57",
   "status": "partial",
   "theorems": [
    "C57_rejects_invalid",
    "C57_as_coded_partial",
    "C57_checked_build_refuted",
    "C57_withdrawable_before_exit_refuted"
   ],
   "note": "Rejection of invalid consolidations and the exact coded effect are proved. Refuted: the withdrawable epoch is computed from the old exit epoch, so checked builds always panic and release builds wrap."
  },
  {
   "property": "C58",
   "status": "proved",
   "theorems": [
    "C58_latest_reached",
    "C58_monotone",
    "C58_boundaries",
    "C58_versions_injective",
    "C58_networks_ordered"
   ],
   "note": ""
  },
  {
   "property": "C59",
   "status": "proved",
   "theorems": [
    "C59_layout",
    "C59_length",
    "C59_separation",
    "C59_signing_roots",
    "C59_version",
    "C59_digest"
   ],
   "note": ""
  },
  {
   "property": "C60",
   "status": "partial",
   "theorems": [
    "C60_forks",
    "C60_no_earlier_fork",
    "C60_boundary_slots",
    "C60_at_fork_slot_refuted"
   ],
   "note": "C60_forks is an exact characterisation of successful application; C60_at_fork_slot_refuted shows that a state already at or past the next fork slot (for instance a genesis state of a network with the next fork at epoch 0) refuses every block of a later fork."
  },
  {
   "property": "C61",
   "status": "partial",
   "theorems": [
    "C61_bad_signature_partial",
    "C61_slots_kept_refuted",
    "C61_slot_blocked_refuted",
    "C61_executor_stuck_refuted"
   ],
   "note": "Refuted: slots processed before the failure are kept, a header accepted before the failure blocks its slot, and a failure across a fork boundary leaves the executor unable to cross it. Only a bad signature at the same slot is proved harmless (C61_bad_signature_partial)."
  },
  {
   "property": "C62",
   "status": "proved",
   "theorems": [
    "C62_block_in_slot",
    "C62_state_transition",
    "C62_disabled"
   ],
   "note": ""
  },
  {
   "property": "C63",
   "status": "proved",
   "theorems": [
    "C63_slot_interval",
    "C63_next_slot",
    "C63_until_slot",
    "C63_timestamp",
    "C63_precisions",
    "C63_epoch"
   ],
   "note": ""
  },
  {
   "property": "C64",
   "status": "proved",
   "theorems": [
    "C64_decode",
    "C64_roundtrip",
    "C64_roundtrip_bare",
    "C64_case",
    "C64_errors",
    "C64_odd",
    "C64_injective",
    "C64_sized"
   ],
   "note": ""
  },
  {
   "property": "C65",
   "status": "partial",
   "theorems": [
    "C65_sized_partial",
    "C65_too_long",
    "C65_data_loss_refuted",
    "C65_raw_partial"
   ],
   "note": "The round trip is proved for every length except those where the framed data ends 1 to 31 bytes past a multiple of the blob capacity (130048 bytes). C65_data_loss_refuted: at those lengths the last bytes are silently replaced by zeros (the final Vec::resize truncates)."
  },
  {
   "property": "C66",
   "status": "proved",
   "theorems": [
    "C66_canonical",
    "C66_order",
    "C66_field_element"
   ],
   "note": ""
  },
  {
   "property": "C67",
   "status": "partial",
   "theorems": [
    "C67_accepts",
    "C67_no_panic_partial",
    "C67_panic_refuted",
    "C67_rejects"
   ],
   "note": "Acceptance is characterised exactly. C67_panic_refuted: a declared size exceeding the bytes after the header by 1 to 4 panics (out-of-range slice) instead of returning an error."
  },
  {
   "property": "C68",
   "status": "partial",
   "theorems": [
    "C68_integers",
    "C68_integers_accepted",
    "C68_state_id_roundtrip",
    "C68_state_id_injective",
    "C68_block_id_injective",
    "C68_state_id_accepted",
    "C68_named_networks",
    "C68_custom_network_refuted"
   ],
   "note": "State and block identifiers, integers and the named networks are proved. C68_custom_network_refuted: a custom network is never read back from its own text (the text names the configuration file, and every unknown text is taken as a directory)."
  },
  {
   "property": "C69",
   "status": "proved",
   "theorems": [
    "C69_sign_verify",
    "C69_unique",
    "C69_other_message",
    "C69_aggregate_one_message",
    "C69_aggregate_messages",
    "C69_aggregate_key",
    "C69_order",
    "C69_empty",
    "C69_signed_data",
    "C69_attestation_accepted",
    "C69_builder_domain"
   ],
   "note": ""
  },
  {
   "property": "C70",
   "status": "partial",
   "theorems": [
    "C70_genesis",
    "C70_one_per_key",
    "C70_registry_unique",
    "C70_valid_genesis",
    "C70_phase0_succeeds",
    "C70_electra_start_index_refuted",
    "C70_electra_unsigned_refuted"
   ],
   "note": "Proved for phase0 to deneb (acceptance, registry, columns, every other field). Electra is refuted: the state starts with receipts start index 0 instead of the unset value, and one unsigned deposit aborts genesis. From altair on success also needs the sync committee sampling to end; that is a hypothesis-free conclusion only for phase0 (C70_phase0_succeeds)."
  },
  {
   "property": "C71",
   "status": "proved",
   "theorems": [
    "C71_deposit_arguments",
    "C71_one_leaf_per_index",
    "C71_sidecar_accepts",
    "C71_sidecar_earlier_forks",
    "C71_sidecar_honest",
    "C71_sidecar_sound"
   ],
   "note": "Deposits: exact arguments and one leaf per index up to hash collisions. Blob sidecars: acceptance iff the external branch check accepts the commitment at field 11 / element index of the body tree; honest branches are accepted and any other leaf needs a hash collision (the external check is a hypothesis, branch_check)."
  },
  {
   "property": "C72",
   "status": "partial",
   "theorems": [
    "C72_generate",
    "C72_deterministic",
    "C72_generate_succeeds",
    "C72_keystore_opens",
    "C72_keystore_counter_refuted"
   ],
   "note": "Key derivation equals EIP-2333/2334 for every seed and index, never panics, and is deterministic. Keystores open under EIP-2335 except when the low half of the initialization vector is all ones: the code labels the cipher aes-128-ctr but uses a 64-bit counter (Ctr64BE), C72_keystore_counter_refuted."
  },
  {
   "property": "C73",
   "status": "partial",
   "theorems": [
    "C73_variant",
    "C73_newest",
    "C73_electra_refuted",
    "C73_malformed_refuted",
    "C73_full_not_blinded",
    "C73_blinded_read_as_altair_refuted"
   ],
   "note": "Holds for phase0 to deneb (C73_variant, C73_newest). Refuted for electra, which the generic types do not know: electra text is read as deneb (C73_electra_refuted). Refuted for malformed text: a fork-specific field that does not decode makes the text an earlier fork's container instead of an error (C73_malformed_refuted). A full block's text is never read as a blinded one (C73_full_not_blinded), but every blinded block's text is accepted where a full block is read and becomes an altair block without payload (C73_blinded_read_as_altair_refuted)."
  },
  {
   "property": "C74",
   "status": "proved",
   "theorems": [
    "C74_epoch_ok",
    "C74_epoch_no_panic",
    "C74_slots_inside",
    "C74_slots_boundary",
    "C74_networks",
    "C74_correlation_overflow",
    "C74_electra_slashings_panic"
   ],
   "note": ""
  },
  {
   "property": "C75",
   "status": "partial",
   "theorems": [
    "C75_state_indices",
    "C75_payload_index",
    "C75_branches",
    "C75_electra_refuted",
    "C75_electra_should_be"
   ],
   "note": "Holds for altair to deneb states and capella to electra bodies. Refuted for electra: electra/spec/mod.rs re-exports the altair constants 105/54/55, but the electra state has 37 fields, so they address zero padding; C75_electra_should_be proves 169/86/87 are right."
  },
  {
   "property": "C76",
   "status": "proved",
   "theorems": [
    "C76_registry_monotone",
    "C76_registry_monotone_across_electra"
   ],
   "note": ""
  },
  {
   "property": "C77",
   "status": "proved",
   "theorems": [
    "C77_block_frame",
    "C77_epoch_frame",
    "C77_shape_preserved"
   ],
   "note": ""
  },
  {
   "property": "C78",
   "status": "partial",
   "theorems": [
    "C78_strict_partial",
    "C78_ordered",
    "C78_duplicate_refuted"
   ],
   "note": "Order is proved for all polls; C78_duplicate_refuted gives a schedule on which the same slot is yielded twice; C78_strict_partial names the condition under which it is not."
  },
  {
   "property": "C79",
   "status": "partial",
   "theorems": [
    "C79_genesis_time_partial",
    "C79_hoodi_refuted",
    "C79_typical"
   ],
   "note": "C79_hoodi_refuted: the built-in network Hoodi has no genesis time, so no clock can be built for it."
  },
  {
   "property": "C80",
   "status": "proved",
   "theorems": [
    "C80_epoch_order",
    "C80_operations_order",
    "C80_block_order"
   ],
   "note": ""
  },
  {
   "property": "C81",
   "status": "partial",
   "theorems": [
    "C81_block_no_panic",
    "C81_networks",
    "C81_deposit_count_underflow_refuted",
    "C81_deposit_count_wraps",
    "C81_unregistered_member_refuted"
   ],
   "note": "Proved for phase0 to deneb, both builds, for every block and every state within the visible bounds (C81_block_no_panic). Without the hypothesis that adopted eth1 data does not undo processed deposits the claim is refuted: C81_deposit_count_underflow_refuted (checked builds panic on every later block); C81_unregistered_member_refuted shows that the sync committee must consist of registered validators."
  },
  {
   "property": "C82",
   "status": "partial",
   "theorems": [
    "C82_release_no_panic",
    "C82_checked_no_panic_partial",
    "C82_consolidation_block_refuted"
   ],
   "note": "Release builds: proved for every block. Checked builds: proved for blocks without consolidations; a valid consolidation crashes there (C82_consolidation_block_refuted, general form C57_checked_build_refuted)."
  },
  {
   "property": "C83",
   "status": "proved",
   "theorems": [
    "C83_all_outstanding",
    "C83_consecutive_leaves",
    "C83_index_advances",
    "C83_wrong_count_rejected"
   ],
   "note": ""
  },
  {
   "property": "C84",
   "status": "proved",
   "theorems": [
    "C84_same_epoch",
    "C84_same_epoch_electra",
    "C84_next_epoch",
    "C84_boundary_keeps_bounds",
    "C84_next_epoch_electra",
    "C84_boundary_keeps_bounds_electra"
   ],
   "note": "Proved for every fork, inside an epoch (C84_same_epoch, C84_same_epoch_electra) and across one epoch boundary (C84_next_epoch, C84_next_epoch_electra; the state after the boundary is again within the bounds: C84_boundary_keeps_bounds, C84_boundary_keeps_bounds_electra). In electra builds with overflow checks the block must contain no consolidations: with one they do crash (C82). Not covered: blocks more than one epoch ahead."
  },
  {
   "property": "C85",
   "status": "partial",
   "theorems": [
    "C85_requests",
    "C85_requests_at_root",
    "C85_injective",
    "C85_blob_indices_refuted",
    "C85_liveness_refuted"
   ],
   "note": "Proved for all methods (C85_requests for any base path ending in a slash, C85_requests_at_root for the two methods with absolute paths), except two calls, for which the property is refuted: get_blob_sidecars with indices never sends anything (serde_urlencoded refuses a sequence as a value), post_liveness with indices sends numbers where the API has strings."
  },
  {
   "property": "C86",
   "status": "partial",
   "theorems": [
    "C86_below_partial",
    "C86_peer_refuted",
    "C86_events_refuted",
    "C86_no_trailing_slash_refuted"
   ],
   "note": "Proved for all methods but two and endpoints that end in a slash; refuted for get_peer and get_events (absolute paths) and for endpoints without the slash."
  },
  {
   "property": "C87",
   "status": "partial",
   "theorems": [
    "C87_get_error",
    "C87_get_failures",
    "C87_post_accepted",
    "C87_post_error",
    "C87_post_failures",
    "C87_error_roundtrip",
    "C87_get_value",
    "C87_status_ignored_refuted",
    "C87_versioned",
    "C87_attester_duties",
    "C87_proposer_duties",
    "C87_missing_root",
    "C87_header",
    "C87_health",
    "C87_headers_refuted",
    "C87_randao_refuted",
    "C87_updates_refuted"
   ],
   "note": "Proved for values, errors, accepted posts, duties and health. Refuted: the status of a GET is ignored; the answers the API prescribes for header queries (a list), randao (an object) and light client updates (a list) cannot be read."
  },
  {
   "property": "C88",
   "status": "proved",
   "theorems": [
    "C88_read",
    "C88_write",
    "C88_version",
    "C88_cast",
    "C88_cast_mut",
    "C88_convert"
   ],
   "note": "Complete for the forks the types have (phase0 to deneb); the types have no electra variant."
  },
  {
   "property": "C89",
   "status": "partial",
   "theorems": [
    "C89_lifecycle",
    "C89_checkpoints",
    "C89_from",
    "C89_release_refuted"
   ],
   "note": "Proved for builds with overflow checks (C89_lifecycle, C89_checkpoints; from any well-formed state: C89_from). Refuted for builds without them: a block with a consolidation (C57) leaves a validator that is withdrawable before it exits (C89_release_refuted)."
  },
  {
   "property": "C90",
   "status": "proved",
   "theorems": [
    "C90_references",
    "C90_committees",
    "C90_vectors",
    "C90_effective_balances",
    "C90_networks"
   ],
   "note": "Proved for both builds and all forks. The cap on effective balances relies on limits every shipped network satisfies (C90_networks)."
  },
  {
   "property": "C91",
   "status": "proved",
   "theorems": [
    "C91_block",
    "C91_import_same_epoch",
    "C91_import_same_epoch_electra"
   ],
   "note": "C81, C82 and C84_same_epoch with all structural hypotheses discharged by reachability (C28, C89, C90); what remains are numeric bounds, the deposit count condition (C81 shows it cannot be dropped) and, in electra builds with overflow checks, the absence of consolidations (C82)."
  },
  {
   "property": "C92",
   "status": "partial",
   "theorems": [
    "C92_proposer_partial",
    "C92_sync_committee_partial",
    "C92_electra_proposer_refuted",
    "C92_electra_sync_committee_refuted"
   ],
   "note": "Proved up to deneb: the proposer and every sync-committee member is a winner of the stake-weighted lottery. Refuted in electra, for all states: the code keeps scaling by the old 32 ETH cap, so any change of effective balances above that cap leaves proposer and sync committee as they were; a validator with 2048 ETH is no likelier to be chosen than one with 32 ETH."
  },
  {
   "property": "C93",
   "status": "partial",
   "theorems": [
    "C93_roundtrip",
    "C93_injective",
    "C93_validated",
    "C93_order",
    "C93_members",
    "C93_reader_refuted",
    "C93_reader_partial"
   ],
   "note": "Round trip, injectivity, validation, member order, missing and repeated members proved for all containers with readers that lend their strings (from_str, from_slice). Refuted for readers with owned strings (serde_json::from_reader, from_value): seq_of_str asks for &str, so every container holding a non-empty list of numbers (indexed attestations, slashings, blocks with attester slashings, all states) is refused; all other values round-trip there too."
  },
  {
   "property": "C94",
   "status": "partial",
   "theorems": [
    "C94_written_partial",
    "C94_read_partial",
    "C94_read_refuted",
    "C94_members_partial",
    "C94_members_refuted"
   ],
   "note": "Proved for 113 of 124 containers. Refuted for the 11 in SpecCodec.exceptions, all light client updates among them: an integer lacks its as_str attribute, so every text the API permits is refused. Member names proved for all but ExecutionLayerWithdrawalRequest, whose public key is called pubkey instead of validator_pubkey: texts with the specified names are refused."
  },
  {
   "property": "C95",
   "status": "proved",
   "theorems": [
    "C95_succeeds",
    "C95_full_voter",
    "C95_absent",
    "C95_leak",
    "C95_better_votes",
    "C95_issuance",
    "C95_issuance_cap",
    "C95_phase0_full_voter",
    "C95_phase0_absent"
   ],
   "note": "Consequences of the exact balances of C32, stated on the function itself. The cap on issuance needs the voters' stake not to exceed the active stake; C95_issuance gives the bound without that hypothesis."
  },
  {
   "property": "C96",
   "status": "proved",
   "theorems": [
    "C96_active_set",
    "C96_committees",
    "C96_committees_as_specified",
    "C96_proposers",
    "C96_networks"
   ],
   "note": "Needs overflow checks: without them an epoch near 2^64 wraps around. C96_sharp shows the bound for committees cannot be raised."
  },
  {
   "property": "C97",
   "status": "proved",
   "theorems": [
    "C97_networks",
    "C97_votes_stay_valid",
    "C97_votes_stay_valid_from",
    "C97_finality_ordered",
    "C97_justified_needs_supermajority"
   ],
   "note": "The statement about phase0 votes needs overflow checks (C96); the ordering of checkpoints holds in both builds."
  },
  {
   "property": "C98",
   "status": "proved",
   "theorems": [
    "C98_next_epoch",
    "C98_next_epoch_electra"
   ],
   "note": "The structural hypotheses of C84 (vectors, alignment, references, committees, votes, order of checkpoints) are discharged for chain states; what remains are numbers (realistic, realistic_epoch)."
  },
  {
   "property": "C99",
   "status": "proved",
   "theorems": [
    "C99_deposit",
    "C99_receipt",
    "C99_accounting"
   ],
   "note": "Invalid signatures are block errors here, as recorded under C27; found by a seeded bug in add_validator_to_registry that no statement had caught."
  },
  {
   "property": "C100",
   "status": "proved",
   "theorems": [
    "C100_chains_are_walks",
    "C100_accountable_safety",
    "C100_conflicting_finality",
    "C100_networks"
   ],
   "note": "The stake table, the drift and the sizes are visible hypotheses; the fork is described by distinct block roots at the epoch starts, not by ancestry, so no assumption on the hash is needed. Runs with overflow checks."
  },
  {
   "property": "C101",
   "status": "proved",
   "theorems": [
    "C101_credit_is_signed",
    "C101_phase0_votes_are_signed",
    "C101_justified_is_signed"
   ],
   "note": "C101_justified_is_signed needs the stake table of C100; the two credit theorems need no stake hypothesis."
  },
  {
   "property": "C102",
   "status": "proved",
   "theorems": [
    "C102_epoch_end",
    "C102_within_epoch",
    "C102_timely_votes_finalize",
    "C102_late_votes_finalize"
   ],
   "note": "The votes are those recorded in the state (C101 ties them to signatures, C84 and C98 to what an honest validator sends). Numeric bounds on sizes are visible in realistic_on."
  },
  {
   "property": "C103",
   "status": "proved",
   "theorems": [
    "C103_evidence_travels",
    "C103_votes_stay_valid",
    "C103_conflict_is_evidence",
    "C103_guilty_can_be_slashed"
   ],
   "note": "Votes older than two upgrades no longer verify, as the state keeps two fork versions only (same in the protocol)."
  },
  {
   "property": "C104",
   "status": "proved",
   "theorems": [
    "C104_archive",
    "C104_append_only",
    "C104_recent",
    "C104_networks"
   ],
   "note": ""
  },
  {
   "property": "C105",
   "status": "proved",
   "theorems": [
    "C105_announced",
    "C105_light_client"
   ],
   "note": "Slots are below 2^56. The committee of the period in which altair starts serves and is announced as the next one at once, so the theorem holds from the upgrade on."
  },
  {
   "property": "C106",
   "status": "proved",
   "theorems": [
    "C106_epoch_blocks",
    "C106_votes_cap"
   ],
   "note": "The bound is an inequality: withdrawals, penalties and rounding only lower it. Checked builds (an overflow is a panic); release builds wrap and are not covered."
  },
  {
   "property": "C107",
   "status": "proved",
   "theorems": [
    "C107_epoch_end",
    "C107_leak"
   ],
   "note": "Phase0 is not covered: its rewards are bounded per validator in C32 and C95. Builds on C95 for the rewards step; the state is within the bounds of C74."
  },
  {
   "property": "C108",
   "status": "proved",
   "theorems": [
    "C108_block",
    "C108_slot",
    "C108_only_the_guilty_are_slashed"
   ],
   "note": "C108_block, C108_slot and, for whole chains, C108_only_the_guilty_are_slashed; all builds and all forks."
  },
  {
   "property": "C109",
   "status": "proved",
   "theorems": [
    "C109_block",
    "C109_slot",
    "C109_nobody_exits_without_cause"
   ],
   "note": "C109_block, C109_slot and, for whole chains, C109_nobody_exits_without_cause; all builds and all forks. The address of a full-exit request is compared with the credentials as they are when the request is processed, which the same block may have set at the request of the withdrawal key."
  },
  {
   "property": "C110",
   "status": "proved",
   "theorems": [
    "C110_block",
    "C110_slot",
    "C110_credentials_change_only_on_request",
    "C110_address_is_final",
    "C110_consolidations_are_signed"
   ],
   "note": "C110_block, C110_slot; for whole chains C110_credentials_change_only_on_request, C110_address_is_final and C110_consolidations_are_signed; all builds and all forks."
  },
  {
   "property": "C111",
   "status": "proved",
   "theorems": [
    "C111_base58",
    "C111_base58_read",
    "C111_round_trip",
    "C111_distinct",
    "C111_only_supported"
   ],
   "note": "The crates bs58, multihash and unsigned-varint are modelled from their published algorithms; they are not part of /repo. The code accepts digests of any length up to 64 under the SHA-256 code."
  },
  {
   "property": "C112",
   "status": "partial",
   "theorems": [
    "C112_one_form_partial",
    "C112_other_form_refuted"
   ],
   "note": "Proved for headers of at most ten bytes (C112_one_form_partial). Refuted in general: a number written with ten bytes loses the bits beyond the 64th instead of being refused, so every identifier has another form (C112_other_form_refuted). Rests on the model of unsigned-varint, which is not part of /repo."
  },
  {
   "property": "C113",
   "status": "proved",
   "theorems": [
    "C113_block",
    "C113_slot",
    "C113_nobody_joins_unsigned"
   ],
   "note": "The validators of the start state are those of genesis; their signatures are the subject of C70."
  },
  {
   "property": "C114",
   "status": "proved",
   "theorems": [
    "C114_block",
    "C114_slot",
    "C114_activated_after_finality",
    "C114_in_line_with_full_balance"
   ],
   "note": "A full balance is MAX_EFFECTIVE_BALANCE before electra and at least MIN_ACTIVATION_BALANCE in electra."
  },
  {
   "property": "C115",
   "status": "partial",
   "theorems": [
    "C115_block",
    "C115_kept",
    "C115_queued_withdrawals_refuted"
   ],
   "note": "C115_block is complete up to the visible hypothesis that electra's queue of partial withdrawals is empty; C115_queued_withdrawals_refuted shows that the claim fails in the code without it (same defect as C54)."
  },
  {
   "property": "C116",
   "status": "proved",
   "theorems": [
    "C116_epoch",
    "C116_duty_done",
    "C116_slot",
    "C116_upgrade",
    "C116_every_loss_has_a_cause"
   ],
   "note": "Proved for altair and later with overflow checks on. Phase0 is left out: its deltas, which also depend on the inclusion delay, are stated exactly by other claims. The chain theorem assumes that no electra state on the chain has queued partial withdrawals, because of the defect recorded as C115_queued_withdrawals_refuted."
  },
  {
   "property": "C117",
   "status": "proved",
   "theorems": [
    "C117_block",
    "C117_execution_chain"
   ],
   "note": "Chains that start before bellatrix have no execution header at the start; the upgrade to bellatrix sets it to the default (C41). The engine is an oracle of the environment."
  },
  {
   "property": "C118",
   "status": "proved",
   "theorems": [
    "C118_block",
    "C118_randomness",
    "C118_past_is_fixed"
   ],
   "note": "The vector of mixes is assumed to have its SSZ length at the start."
  },
  {
   "property": "C119",
   "status": "proved",
   "theorems": [
    "C119_block",
    "C119_tally",
    "C119_counted",
    "C119_adopted",
    "C119_one_change_per_period"
   ],
   "note": "C119_block is the exact effect of an accepted block; C119_tally, C119_counted, C119_adopted and C119_one_change_per_period are over all walks, for builds with overflow checks. C119_one_change_per_period assumes the period starts without votes, which C119_tally shows of every period that starts on the chain."
  },
  {
   "property": "C120",
   "status": "proved",
   "theorems": [
    "C120_block",
    "C120_record",
    "C120_total"
   ],
   "note": "For builds with overflow checks. Blocks that make the code panic are excluded: the panic can happen between the flag and the record (an overflow of the entry), C81 gives bounds under which no block panics."
  },
  {
   "property": "C121",
   "status": "proved",
   "theorems": [
    "C121_counter",
    "C121_contract_order",
    "C121_chains_agree"
   ],
   "note": "All forks. Chains of accepted blocks (a rejected block's state is discarded). The Merkle check is the external ssz_rs function; the theorem assumes that it computes the branch root over 32-byte chunks (branch_check). The counter must stay below the tree's 2^32 leaves."
  },
  {
   "property": "C122",
   "status": "proved",
   "theorems": [
    "C122_numbering",
    "C122_no_number_twice",
    "C122_due"
   ],
   "note": "Numbering in all forks, including electra's queued partial withdrawals; what is due in capella and deneb only, because electra debits the wrong validator for queued withdrawals (C54). Overflow-checked builds."
  },
  {
   "property": "C123",
   "status": "proved",
   "theorems": [
    "C123_wait",
    "C123_networks"
   ],
   "note": "Capella and deneb; electra computes the pointer from the withdrawal number (C43_electra_pointer_refuted), so the claim is not made there."
  },
  {
   "property": "C124",
   "status": "proved",
   "theorems": [
    "C124_exits_per_epoch",
    "C124_turnover"
   ],
   "note": "Phase0 to deneb, overflow-checked builds; electra limits exits by balance instead (C48). The chain excludes calls that panic."
  },
  {
   "property": "C125",
   "status": "proved",
   "theorems": [
    "C125_joins_per_epoch",
    "C125_growth"
   ],
   "note": "Phase0 to deneb, overflow-checked builds; electra has no cap on activations at this step."
  },
  {
   "property": "C126",
   "status": "proved",
   "theorems": [
    "C126_rises_only_by_misses",
    "C126_recovers"
   ],
   "note": "All forks, checked and wrapping builds alike. Credit means the participation flag recorded in the state; C101 says who can get it."
  },
  {
   "property": "C127",
   "status": "proved",
   "theorems": [
    "C127_weight_set_at_epoch_ends",
    "C127_total_fixed_within_epoch",
    "C127_follows_at_epoch_ends"
   ],
   "note": "Builds with overflow checks. Needs the upward margin to be at least one increment, as on the networks."
  },
  {
   "property": "C128",
   "status": "proved",
   "theorems": [
    "C128_weight_capped",
    "C128_from_genesis"
   ],
   "note": "All forks, checked and wrapping builds alike for the histories. Needs the caps to be whole increments and ordered, proved of all six configurations in C128_networks."
  },
  {
   "property": "C129",
   "status": "proved",
   "theorems": [
    "C129_no_return",
    "C129_no_duties"
   ],
   "note": "Any environment, checked and wrapping builds alike. The keys are unique at the start; C28 and C70 show this of reachable states."
  }
 ]
}