(** * Presets: the values of [Ctx] for the networks shipped with the repository   GENERATED by tools/gen_presets.py

    Each value cites the constant it was read from (files under ethereum-consensus/src). *)
From Verif Require Import Base Ctx.

Definition ctx_mainnet : Ctx := {|
  MAX_COMMITTEES_PER_SLOT := 64 (* phase0/presets/mainnet.rs:5 *);
  TARGET_COMMITTEE_SIZE := 128 (* phase0/presets/mainnet.rs:6 *);
  MAX_VALIDATORS_PER_COMMITTEE := 2048 (* phase0/presets/mainnet.rs:7 *);
  SHUFFLE_ROUND_COUNT := 90 (* phase0/presets/mainnet.rs:8 *);
  HYSTERESIS_QUOTIENT := 4 (* phase0/presets/mainnet.rs:9 *);
  HYSTERESIS_DOWNWARD_MULTIPLIER := 1 (* phase0/presets/mainnet.rs:10 *);
  HYSTERESIS_UPWARD_MULTIPLIER := 5 (* phase0/presets/mainnet.rs:11 *);
  MIN_DEPOSIT_AMOUNT := 1000000000 (* phase0/presets/mainnet.rs:12 *);
  MAX_EFFECTIVE_BALANCE := 32000000000 (* phase0/presets/mainnet.rs:13 *);
  EFFECTIVE_BALANCE_INCREMENT := 1000000000 (* phase0/presets/mainnet.rs:14 *);
  MIN_ATTESTATION_INCLUSION_DELAY := 1 (* phase0/presets/mainnet.rs:15 *);
  SLOTS_PER_EPOCH := 32 (* phase0/presets/mainnet.rs:16 *);
  MIN_SEED_LOOKAHEAD := 1 (* phase0/presets/mainnet.rs:17 *);
  MAX_SEED_LOOKAHEAD := 4 (* phase0/presets/mainnet.rs:18 *);
  MIN_EPOCHS_TO_INACTIVITY_PENALTY := 4 (* phase0/presets/mainnet.rs:19 *);
  EPOCHS_PER_ETH1_VOTING_PERIOD := 64 (* phase0/presets/mainnet.rs:20 *);
  SLOTS_PER_HISTORICAL_ROOT := 8192 (* phase0/presets/mainnet.rs:21 *);
  EPOCHS_PER_HISTORICAL_VECTOR := 65536 (* phase0/presets/mainnet.rs:22 *);
  EPOCHS_PER_SLASHINGS_VECTOR := 8192 (* phase0/presets/mainnet.rs:23 *);
  HISTORICAL_ROOTS_LIMIT := 16777216 (* phase0/presets/mainnet.rs:24 *);
  VALIDATOR_REGISTRY_LIMIT := 1099511627776 (* phase0/presets/mainnet.rs:25 *);
  BASE_REWARD_FACTOR := 64 (* phase0/presets/mainnet.rs:26 *);
  WHISTLEBLOWER_REWARD_QUOTIENT := 512 (* phase0/presets/mainnet.rs:27 *);
  PROPOSER_REWARD_QUOTIENT := 8 (* phase0/presets/mainnet.rs:28 *);
  INACTIVITY_PENALTY_QUOTIENT := 67108864 (* phase0/presets/mainnet.rs:29 *);
  MIN_SLASHING_PENALTY_QUOTIENT := 128 (* phase0/presets/mainnet.rs:30 *);
  PROPORTIONAL_SLASHING_MULTIPLIER := 1 (* phase0/presets/mainnet.rs:31 *);
  MAX_PROPOSER_SLASHINGS := 16 (* phase0/presets/mainnet.rs:32 *);
  MAX_ATTESTER_SLASHINGS := 2 (* phase0/presets/mainnet.rs:33 *);
  MAX_ATTESTATIONS := 128 (* phase0/presets/mainnet.rs:34 *);
  MAX_DEPOSITS := 16 (* phase0/presets/mainnet.rs:35 *);
  MAX_VOLUNTARY_EXITS := 16 (* phase0/presets/mainnet.rs:36 *);
  INACTIVITY_PENALTY_QUOTIENT_ALTAIR := 50331648 (* altair/presets/mainnet.rs:16 *);
  MIN_SLASHING_PENALTY_QUOTIENT_ALTAIR := 64 (* altair/presets/mainnet.rs:17 *);
  PROPORTIONAL_SLASHING_MULTIPLIER_ALTAIR := 2 (* altair/presets/mainnet.rs:18 *);
  SYNC_COMMITTEE_SIZE := 512 (* altair/presets/mainnet.rs:19 *);
  EPOCHS_PER_SYNC_COMMITTEE_PERIOD := 256 (* altair/presets/mainnet.rs:20 *);
  MIN_SYNC_COMMITTEE_PARTICIPANTS := 1 (* altair/presets/mainnet.rs:21 *);
  UPDATE_TIMEOUT := 8192 (* altair/presets/mainnet.rs:22 *);
  INACTIVITY_PENALTY_QUOTIENT_BELLATRIX := 16777216 (* bellatrix/presets/mainnet.rs:18 *);
  MIN_SLASHING_PENALTY_QUOTIENT_BELLATRIX := 32 (* bellatrix/presets/mainnet.rs:19 *);
  PROPORTIONAL_SLASHING_MULTIPLIER_BELLATRIX := 3 (* bellatrix/presets/mainnet.rs:20 *);
  MAX_BYTES_PER_TRANSACTION := 1073741824 (* bellatrix/presets/mainnet.rs:21 *);
  MAX_TRANSACTIONS_PER_PAYLOAD := 1048576 (* bellatrix/presets/mainnet.rs:22 *);
  BYTES_PER_LOGS_BLOOM := 256 (* bellatrix/presets/mainnet.rs:23 *);
  MAX_EXTRA_DATA_BYTES := 32 (* bellatrix/presets/mainnet.rs:24 *);
  MAX_BLS_TO_EXECUTION_CHANGES := 16 (* capella/presets/mainnet.rs:19 *);
  MAX_WITHDRAWALS_PER_PAYLOAD := 16 (* capella/presets/mainnet.rs:18 *);
  MAX_VALIDATORS_PER_WITHDRAWALS_SWEEP := 16384 (* capella/presets/mainnet.rs:20 *);
  FIELD_ELEMENTS_PER_BLOB := 4096 (* deneb/presets/mainnet.rs:19 *);
  MAX_BLOB_COMMITMENTS_PER_BLOCK := 4096 (* deneb/presets/mainnet.rs:20 *);
  MAX_BLOBS_PER_BLOCK := 6 (* deneb/presets/mainnet.rs:21 *);
  MIN_ACTIVATION_BALANCE := 32000000000 (* electra/presets/mainnet.rs:6 *);
  MAX_EFFECTIVE_BALANCE_ELECTRA := 2048000000000 (* electra/presets/mainnet.rs:7 *);
  MIN_SLASHING_PENALTY_QUOTIENT_ELECTRA := 4096 (* electra/presets/mainnet.rs:8 *);
  WHISTLEBLOWER_REWARD_QUOTIENT_ELECTRA := 4096 (* electra/presets/mainnet.rs:9 *);
  PENDING_BALANCE_DEPOSITS_LIMIT := 134217728 (* electra/presets/mainnet.rs:10 *);
  PENDING_PARTIAL_WITHDRAWALS_LIMIT := 134217728 (* electra/presets/mainnet.rs:11 *);
  PENDING_CONSOLIDATIONS_LIMIT := 262144 (* electra/presets/mainnet.rs:12 *);
  MAX_ATTESTER_SLASHINGS_ELECTRA := 1 (* electra/presets/mainnet.rs:13 *);
  MAX_ATTESTATIONS_ELECTRA := 8 (* electra/presets/mainnet.rs:14 *);
  MAX_CONSOLIDATIONS := 1 (* electra/presets/mainnet.rs:15 *);
  MAX_DEPOSIT_RECEIPTS_PER_PAYLOAD := 8192 (* electra/presets/mainnet.rs:16 *);
  MAX_WITHDRAWAL_REQUESTS_PER_PAYLOAD := 16 (* electra/presets/mainnet.rs:17 *);
  MAX_PENDING_PARTIALS_PER_WITHDRAWALS_SWEEP := 8 (* electra/presets/mainnet.rs:18 *);
  TERMINAL_BLOCK_HASH_ACTIVATION_EPOCH := 18446744073709551615 (* configs/mainnet.rs:22 *);
  MIN_GENESIS_ACTIVE_VALIDATOR_COUNT := 16384 (* configs/mainnet.rs:7 *);
  MIN_GENESIS_TIME := 1606824000 (* configs/mainnet.rs:8 *);
  GENESIS_FORK_VERSION := [0; 0; 0; 0] (* configs/mainnet.rs:9 *);
  GENESIS_DELAY := 604800 (* configs/mainnet.rs:10 *);
  ALTAIR_FORK_VERSION := [1; 0; 0; 0] (* configs/mainnet.rs:23 *);
  ALTAIR_FORK_EPOCH := 74240 (* configs/mainnet.rs:24 *);
  BELLATRIX_FORK_VERSION := [2; 0; 0; 0] (* configs/mainnet.rs:25 *);
  BELLATRIX_FORK_EPOCH := 144896 (* configs/mainnet.rs:26 *);
  CAPELLA_FORK_VERSION := [3; 0; 0; 0] (* configs/mainnet.rs:27 *);
  CAPELLA_FORK_EPOCH := 194048 (* configs/mainnet.rs:28 *);
  DENEB_FORK_VERSION := [4; 0; 0; 0] (* configs/mainnet.rs:29 *);
  DENEB_FORK_EPOCH := 269568 (* configs/mainnet.rs:30 *);
  ELECTRA_FORK_VERSION := [5; 0; 0; 0] (* configs/mainnet.rs:31 *);
  ELECTRA_FORK_EPOCH := 18446744073709551615 (* configs/mainnet.rs:32 *);
  SECONDS_PER_SLOT := 12 (* configs/mainnet.rs:11 *);
  SECONDS_PER_ETH1_BLOCK := 14 (* configs/mainnet.rs:12 *);
  MIN_VALIDATOR_WITHDRAWABILITY_DELAY := 256 (* configs/mainnet.rs:13 *);
  SHARD_COMMITTEE_PERIOD := 256 (* configs/mainnet.rs:14 *);
  ETH1_FOLLOW_DISTANCE := 2048 (* configs/mainnet.rs:15 *);
  INACTIVITY_SCORE_BIAS := 4 (* configs/mainnet.rs:33 *);
  INACTIVITY_SCORE_RECOVERY_RATE := 16 (* configs/mainnet.rs:34 *);
  EJECTION_BALANCE := 16000000000 (* configs/mainnet.rs:16 *);
  MIN_PER_EPOCH_CHURN_LIMIT := 4 (* configs/mainnet.rs:17 *);
  MAX_PER_EPOCH_ACTIVATION_CHURN_LIMIT := 8 (* configs/mainnet.rs:18 *);
  MIN_PER_EPOCH_CHURN_LIMIT_ELECTRA := 128000000000 (* configs/mainnet.rs:20 *);
  MAX_PER_EPOCH_ACTIVATION_EXIT_CHURN_LIMIT := 256000000000 (* configs/mainnet.rs:21 *);
  CHURN_LIMIT_QUOTIENT := 65536 (* configs/mainnet.rs:19 *);
  PROPOSER_SCORE_BOOST := 40 (* configs/mainnet.rs:35 *);
  DEPOSIT_CHAIN_ID := 1 (* configs/mainnet.rs:36 *);
  DEPOSIT_NETWORK_ID := 1 (* configs/mainnet.rs:37 *)
|}.

Definition ctx_minimal : Ctx := {|
  MAX_COMMITTEES_PER_SLOT := 4 (* phase0/presets/minimal.rs:5 *);
  TARGET_COMMITTEE_SIZE := 4 (* phase0/presets/minimal.rs:6 *);
  MAX_VALIDATORS_PER_COMMITTEE := 2048 (* phase0/presets/minimal.rs:7 *);
  SHUFFLE_ROUND_COUNT := 10 (* phase0/presets/minimal.rs:8 *);
  HYSTERESIS_QUOTIENT := 4 (* phase0/presets/minimal.rs:9 *);
  HYSTERESIS_DOWNWARD_MULTIPLIER := 1 (* phase0/presets/minimal.rs:10 *);
  HYSTERESIS_UPWARD_MULTIPLIER := 5 (* phase0/presets/minimal.rs:11 *);
  MIN_DEPOSIT_AMOUNT := 1000000000 (* phase0/presets/minimal.rs:12 *);
  MAX_EFFECTIVE_BALANCE := 32000000000 (* phase0/presets/minimal.rs:13 *);
  EFFECTIVE_BALANCE_INCREMENT := 1000000000 (* phase0/presets/minimal.rs:14 *);
  MIN_ATTESTATION_INCLUSION_DELAY := 1 (* phase0/presets/minimal.rs:15 *);
  SLOTS_PER_EPOCH := 8 (* phase0/presets/minimal.rs:16 *);
  MIN_SEED_LOOKAHEAD := 1 (* phase0/presets/minimal.rs:17 *);
  MAX_SEED_LOOKAHEAD := 4 (* phase0/presets/minimal.rs:18 *);
  MIN_EPOCHS_TO_INACTIVITY_PENALTY := 4 (* phase0/presets/minimal.rs:21 *);
  EPOCHS_PER_ETH1_VOTING_PERIOD := 4 (* phase0/presets/minimal.rs:19 *);
  SLOTS_PER_HISTORICAL_ROOT := 64 (* phase0/presets/minimal.rs:20 *);
  EPOCHS_PER_HISTORICAL_VECTOR := 64 (* phase0/presets/minimal.rs:22 *);
  EPOCHS_PER_SLASHINGS_VECTOR := 64 (* phase0/presets/minimal.rs:23 *);
  HISTORICAL_ROOTS_LIMIT := 16777216 (* phase0/presets/minimal.rs:24 *);
  VALIDATOR_REGISTRY_LIMIT := 1099511627776 (* phase0/presets/minimal.rs:25 *);
  BASE_REWARD_FACTOR := 64 (* phase0/presets/minimal.rs:26 *);
  WHISTLEBLOWER_REWARD_QUOTIENT := 512 (* phase0/presets/minimal.rs:27 *);
  PROPOSER_REWARD_QUOTIENT := 8 (* phase0/presets/minimal.rs:28 *);
  INACTIVITY_PENALTY_QUOTIENT := 33554432 (* phase0/presets/minimal.rs:29 *);
  MIN_SLASHING_PENALTY_QUOTIENT := 64 (* phase0/presets/minimal.rs:30 *);
  PROPORTIONAL_SLASHING_MULTIPLIER := 2 (* phase0/presets/minimal.rs:31 *);
  MAX_PROPOSER_SLASHINGS := 16 (* phase0/presets/minimal.rs:32 *);
  MAX_ATTESTER_SLASHINGS := 2 (* phase0/presets/minimal.rs:33 *);
  MAX_ATTESTATIONS := 128 (* phase0/presets/minimal.rs:34 *);
  MAX_DEPOSITS := 16 (* phase0/presets/minimal.rs:35 *);
  MAX_VOLUNTARY_EXITS := 16 (* phase0/presets/minimal.rs:36 *);
  INACTIVITY_PENALTY_QUOTIENT_ALTAIR := 50331648 (* altair/presets/minimal.rs:16 *);
  MIN_SLASHING_PENALTY_QUOTIENT_ALTAIR := 64 (* altair/presets/minimal.rs:17 *);
  PROPORTIONAL_SLASHING_MULTIPLIER_ALTAIR := 2 (* altair/presets/minimal.rs:18 *);
  SYNC_COMMITTEE_SIZE := 32 (* altair/presets/minimal.rs:19 *);
  EPOCHS_PER_SYNC_COMMITTEE_PERIOD := 8 (* altair/presets/minimal.rs:20 *);
  MIN_SYNC_COMMITTEE_PARTICIPANTS := 1 (* altair/presets/minimal.rs:21 *);
  UPDATE_TIMEOUT := 64 (* altair/presets/minimal.rs:22 *);
  INACTIVITY_PENALTY_QUOTIENT_BELLATRIX := 16777216 (* bellatrix/presets/minimal.rs:18 *);
  MIN_SLASHING_PENALTY_QUOTIENT_BELLATRIX := 32 (* bellatrix/presets/minimal.rs:19 *);
  PROPORTIONAL_SLASHING_MULTIPLIER_BELLATRIX := 3 (* bellatrix/presets/minimal.rs:20 *);
  MAX_BYTES_PER_TRANSACTION := 1073741824 (* bellatrix/presets/minimal.rs:21 *);
  MAX_TRANSACTIONS_PER_PAYLOAD := 1048576 (* bellatrix/presets/minimal.rs:22 *);
  BYTES_PER_LOGS_BLOOM := 256 (* bellatrix/presets/minimal.rs:23 *);
  MAX_EXTRA_DATA_BYTES := 32 (* bellatrix/presets/minimal.rs:24 *);
  MAX_BLS_TO_EXECUTION_CHANGES := 16 (* capella/presets/minimal.rs:19 *);
  MAX_WITHDRAWALS_PER_PAYLOAD := 4 (* capella/presets/minimal.rs:18 *);
  MAX_VALIDATORS_PER_WITHDRAWALS_SWEEP := 16 (* capella/presets/minimal.rs:20 *);
  FIELD_ELEMENTS_PER_BLOB := 4096 (* deneb/presets/minimal.rs:19 *);
  MAX_BLOB_COMMITMENTS_PER_BLOCK := 16 (* deneb/presets/minimal.rs:20 *);
  MAX_BLOBS_PER_BLOCK := 6 (* deneb/presets/minimal.rs:21 *);
  MIN_ACTIVATION_BALANCE := 32000000000 (* electra/presets/minimal.rs:6 *);
  MAX_EFFECTIVE_BALANCE_ELECTRA := 2048000000000 (* electra/presets/minimal.rs:7 *);
  MIN_SLASHING_PENALTY_QUOTIENT_ELECTRA := 4096 (* electra/presets/minimal.rs:8 *);
  WHISTLEBLOWER_REWARD_QUOTIENT_ELECTRA := 4096 (* electra/presets/minimal.rs:9 *);
  PENDING_BALANCE_DEPOSITS_LIMIT := 134217728 (* electra/presets/minimal.rs:10 *);
  PENDING_PARTIAL_WITHDRAWALS_LIMIT := 64 (* electra/presets/minimal.rs:11 *);
  PENDING_CONSOLIDATIONS_LIMIT := 64 (* electra/presets/minimal.rs:12 *);
  MAX_ATTESTER_SLASHINGS_ELECTRA := 1 (* electra/presets/minimal.rs:13 *);
  MAX_ATTESTATIONS_ELECTRA := 8 (* electra/presets/minimal.rs:14 *);
  MAX_CONSOLIDATIONS := 1 (* electra/presets/minimal.rs:15 *);
  MAX_DEPOSIT_RECEIPTS_PER_PAYLOAD := 4 (* electra/presets/minimal.rs:16 *);
  MAX_WITHDRAWAL_REQUESTS_PER_PAYLOAD := 2 (* electra/presets/minimal.rs:17 *);
  MAX_PENDING_PARTIALS_PER_WITHDRAWALS_SWEEP := 1 (* electra/presets/minimal.rs:18 *);
  TERMINAL_BLOCK_HASH_ACTIVATION_EPOCH := 18446744073709551615 (* configs/minimal.rs:7 *);
  MIN_GENESIS_ACTIVE_VALIDATOR_COUNT := 64 (* configs/minimal.rs:8 *);
  MIN_GENESIS_TIME := 1578009600 (* configs/minimal.rs:9 *);
  GENESIS_FORK_VERSION := [0; 0; 0; 1] (* configs/minimal.rs:10 *);
  GENESIS_DELAY := 300 (* configs/minimal.rs:11 *);
  ALTAIR_FORK_VERSION := [1; 0; 0; 1] (* configs/minimal.rs:12 *);
  ALTAIR_FORK_EPOCH := 18446744073709551615 (* configs/minimal.rs:13 *);
  BELLATRIX_FORK_VERSION := [2; 0; 0; 1] (* configs/minimal.rs:14 *);
  BELLATRIX_FORK_EPOCH := 18446744073709551615 (* configs/minimal.rs:15 *);
  CAPELLA_FORK_VERSION := [3; 0; 0; 1] (* configs/minimal.rs:16 *);
  CAPELLA_FORK_EPOCH := 18446744073709551615 (* configs/minimal.rs:17 *);
  DENEB_FORK_VERSION := [4; 0; 0; 1] (* configs/minimal.rs:18 *);
  DENEB_FORK_EPOCH := 18446744073709551615 (* configs/minimal.rs:19 *);
  ELECTRA_FORK_VERSION := [5; 0; 0; 1] (* configs/minimal.rs:20 *);
  ELECTRA_FORK_EPOCH := 18446744073709551615 (* configs/minimal.rs:21 *);
  SECONDS_PER_SLOT := 6 (* configs/minimal.rs:22 *);
  SECONDS_PER_ETH1_BLOCK := 14 (* configs/minimal.rs:23 *);
  MIN_VALIDATOR_WITHDRAWABILITY_DELAY := 256 (* configs/minimal.rs:24 *);
  SHARD_COMMITTEE_PERIOD := 64 (* configs/minimal.rs:25 *);
  ETH1_FOLLOW_DISTANCE := 16 (* configs/minimal.rs:26 *);
  INACTIVITY_SCORE_BIAS := 4 (* configs/minimal.rs:27 *);
  INACTIVITY_SCORE_RECOVERY_RATE := 16 (* configs/minimal.rs:28 *);
  EJECTION_BALANCE := 16000000000 (* configs/minimal.rs:29 *);
  MIN_PER_EPOCH_CHURN_LIMIT := 2 (* configs/minimal.rs:30 *);
  MAX_PER_EPOCH_ACTIVATION_CHURN_LIMIT := 4 (* configs/minimal.rs:31 *);
  MIN_PER_EPOCH_CHURN_LIMIT_ELECTRA := 64000000000 (* configs/minimal.rs:32 *);
  MAX_PER_EPOCH_ACTIVATION_EXIT_CHURN_LIMIT := 128000000000 (* configs/minimal.rs:33 *);
  CHURN_LIMIT_QUOTIENT := 32 (* configs/minimal.rs:34 *);
  PROPOSER_SCORE_BOOST := 40 (* configs/minimal.rs:35 *);
  DEPOSIT_CHAIN_ID := 5 (* configs/minimal.rs:36 *);
  DEPOSIT_NETWORK_ID := 5 (* configs/minimal.rs:37 *)
|}.

Definition ctx_goerli : Ctx := {|
  MAX_COMMITTEES_PER_SLOT := 64 (* phase0/presets/mainnet.rs:5 *);
  TARGET_COMMITTEE_SIZE := 128 (* phase0/presets/mainnet.rs:6 *);
  MAX_VALIDATORS_PER_COMMITTEE := 2048 (* phase0/presets/mainnet.rs:7 *);
  SHUFFLE_ROUND_COUNT := 90 (* phase0/presets/mainnet.rs:8 *);
  HYSTERESIS_QUOTIENT := 4 (* phase0/presets/mainnet.rs:9 *);
  HYSTERESIS_DOWNWARD_MULTIPLIER := 1 (* phase0/presets/mainnet.rs:10 *);
  HYSTERESIS_UPWARD_MULTIPLIER := 5 (* phase0/presets/mainnet.rs:11 *);
  MIN_DEPOSIT_AMOUNT := 1000000000 (* phase0/presets/mainnet.rs:12 *);
  MAX_EFFECTIVE_BALANCE := 32000000000 (* phase0/presets/mainnet.rs:13 *);
  EFFECTIVE_BALANCE_INCREMENT := 1000000000 (* phase0/presets/mainnet.rs:14 *);
  MIN_ATTESTATION_INCLUSION_DELAY := 1 (* phase0/presets/mainnet.rs:15 *);
  SLOTS_PER_EPOCH := 32 (* phase0/presets/mainnet.rs:16 *);
  MIN_SEED_LOOKAHEAD := 1 (* phase0/presets/mainnet.rs:17 *);
  MAX_SEED_LOOKAHEAD := 4 (* phase0/presets/mainnet.rs:18 *);
  MIN_EPOCHS_TO_INACTIVITY_PENALTY := 4 (* phase0/presets/mainnet.rs:19 *);
  EPOCHS_PER_ETH1_VOTING_PERIOD := 64 (* phase0/presets/mainnet.rs:20 *);
  SLOTS_PER_HISTORICAL_ROOT := 8192 (* phase0/presets/mainnet.rs:21 *);
  EPOCHS_PER_HISTORICAL_VECTOR := 65536 (* phase0/presets/mainnet.rs:22 *);
  EPOCHS_PER_SLASHINGS_VECTOR := 8192 (* phase0/presets/mainnet.rs:23 *);
  HISTORICAL_ROOTS_LIMIT := 16777216 (* phase0/presets/mainnet.rs:24 *);
  VALIDATOR_REGISTRY_LIMIT := 1099511627776 (* phase0/presets/mainnet.rs:25 *);
  BASE_REWARD_FACTOR := 64 (* phase0/presets/mainnet.rs:26 *);
  WHISTLEBLOWER_REWARD_QUOTIENT := 512 (* phase0/presets/mainnet.rs:27 *);
  PROPOSER_REWARD_QUOTIENT := 8 (* phase0/presets/mainnet.rs:28 *);
  INACTIVITY_PENALTY_QUOTIENT := 67108864 (* phase0/presets/mainnet.rs:29 *);
  MIN_SLASHING_PENALTY_QUOTIENT := 128 (* phase0/presets/mainnet.rs:30 *);
  PROPORTIONAL_SLASHING_MULTIPLIER := 1 (* phase0/presets/mainnet.rs:31 *);
  MAX_PROPOSER_SLASHINGS := 16 (* phase0/presets/mainnet.rs:32 *);
  MAX_ATTESTER_SLASHINGS := 2 (* phase0/presets/mainnet.rs:33 *);
  MAX_ATTESTATIONS := 128 (* phase0/presets/mainnet.rs:34 *);
  MAX_DEPOSITS := 16 (* phase0/presets/mainnet.rs:35 *);
  MAX_VOLUNTARY_EXITS := 16 (* phase0/presets/mainnet.rs:36 *);
  INACTIVITY_PENALTY_QUOTIENT_ALTAIR := 50331648 (* altair/presets/mainnet.rs:16 *);
  MIN_SLASHING_PENALTY_QUOTIENT_ALTAIR := 64 (* altair/presets/mainnet.rs:17 *);
  PROPORTIONAL_SLASHING_MULTIPLIER_ALTAIR := 2 (* altair/presets/mainnet.rs:18 *);
  SYNC_COMMITTEE_SIZE := 512 (* altair/presets/mainnet.rs:19 *);
  EPOCHS_PER_SYNC_COMMITTEE_PERIOD := 256 (* altair/presets/mainnet.rs:20 *);
  MIN_SYNC_COMMITTEE_PARTICIPANTS := 1 (* altair/presets/mainnet.rs:21 *);
  UPDATE_TIMEOUT := 8192 (* altair/presets/mainnet.rs:22 *);
  INACTIVITY_PENALTY_QUOTIENT_BELLATRIX := 16777216 (* bellatrix/presets/mainnet.rs:18 *);
  MIN_SLASHING_PENALTY_QUOTIENT_BELLATRIX := 32 (* bellatrix/presets/mainnet.rs:19 *);
  PROPORTIONAL_SLASHING_MULTIPLIER_BELLATRIX := 3 (* bellatrix/presets/mainnet.rs:20 *);
  MAX_BYTES_PER_TRANSACTION := 1073741824 (* bellatrix/presets/mainnet.rs:21 *);
  MAX_TRANSACTIONS_PER_PAYLOAD := 1048576 (* bellatrix/presets/mainnet.rs:22 *);
  BYTES_PER_LOGS_BLOOM := 256 (* bellatrix/presets/mainnet.rs:23 *);
  MAX_EXTRA_DATA_BYTES := 32 (* bellatrix/presets/mainnet.rs:24 *);
  MAX_BLS_TO_EXECUTION_CHANGES := 16 (* capella/presets/mainnet.rs:19 *);
  MAX_WITHDRAWALS_PER_PAYLOAD := 16 (* capella/presets/mainnet.rs:18 *);
  MAX_VALIDATORS_PER_WITHDRAWALS_SWEEP := 16384 (* capella/presets/mainnet.rs:20 *);
  FIELD_ELEMENTS_PER_BLOB := 4096 (* deneb/presets/mainnet.rs:19 *);
  MAX_BLOB_COMMITMENTS_PER_BLOCK := 4096 (* deneb/presets/mainnet.rs:20 *);
  MAX_BLOBS_PER_BLOCK := 6 (* deneb/presets/mainnet.rs:21 *);
  MIN_ACTIVATION_BALANCE := 32000000000 (* electra/presets/mainnet.rs:6 *);
  MAX_EFFECTIVE_BALANCE_ELECTRA := 2048000000000 (* electra/presets/mainnet.rs:7 *);
  MIN_SLASHING_PENALTY_QUOTIENT_ELECTRA := 4096 (* electra/presets/mainnet.rs:8 *);
  WHISTLEBLOWER_REWARD_QUOTIENT_ELECTRA := 4096 (* electra/presets/mainnet.rs:9 *);
  PENDING_BALANCE_DEPOSITS_LIMIT := 134217728 (* electra/presets/mainnet.rs:10 *);
  PENDING_PARTIAL_WITHDRAWALS_LIMIT := 134217728 (* electra/presets/mainnet.rs:11 *);
  PENDING_CONSOLIDATIONS_LIMIT := 262144 (* electra/presets/mainnet.rs:12 *);
  MAX_ATTESTER_SLASHINGS_ELECTRA := 1 (* electra/presets/mainnet.rs:13 *);
  MAX_ATTESTATIONS_ELECTRA := 8 (* electra/presets/mainnet.rs:14 *);
  MAX_CONSOLIDATIONS := 1 (* electra/presets/mainnet.rs:15 *);
  MAX_DEPOSIT_RECEIPTS_PER_PAYLOAD := 8192 (* electra/presets/mainnet.rs:16 *);
  MAX_WITHDRAWAL_REQUESTS_PER_PAYLOAD := 16 (* electra/presets/mainnet.rs:17 *);
  MAX_PENDING_PARTIALS_PER_WITHDRAWALS_SWEEP := 8 (* electra/presets/mainnet.rs:18 *);
  TERMINAL_BLOCK_HASH_ACTIVATION_EPOCH := 18446744073709551615 (* configs/goerli.rs:22 *);
  MIN_GENESIS_ACTIVE_VALIDATOR_COUNT := 16384 (* configs/goerli.rs:7 *);
  MIN_GENESIS_TIME := 1614588812 (* configs/goerli.rs:8 *);
  GENESIS_FORK_VERSION := [0; 0; 16; 32] (* configs/goerli.rs:9 *);
  GENESIS_DELAY := 1919188 (* configs/goerli.rs:10 *);
  ALTAIR_FORK_VERSION := [1; 0; 16; 32] (* configs/goerli.rs:23 *);
  ALTAIR_FORK_EPOCH := 36660 (* configs/goerli.rs:24 *);
  BELLATRIX_FORK_VERSION := [2; 0; 16; 32] (* configs/goerli.rs:25 *);
  BELLATRIX_FORK_EPOCH := 112260 (* configs/goerli.rs:26 *);
  CAPELLA_FORK_VERSION := [3; 0; 16; 32] (* configs/goerli.rs:27 *);
  CAPELLA_FORK_EPOCH := 162304 (* configs/goerli.rs:28 *);
  DENEB_FORK_VERSION := [4; 0; 16; 32] (* configs/goerli.rs:29 *);
  DENEB_FORK_EPOCH := 231680 (* configs/goerli.rs:30 *);
  ELECTRA_FORK_VERSION := [5; 0; 16; 32] (* configs/goerli.rs:31 *);
  ELECTRA_FORK_EPOCH := 18446744073709551615 (* configs/goerli.rs:32 *);
  SECONDS_PER_SLOT := 12 (* configs/goerli.rs:11 *);
  SECONDS_PER_ETH1_BLOCK := 14 (* configs/goerli.rs:12 *);
  MIN_VALIDATOR_WITHDRAWABILITY_DELAY := 256 (* configs/goerli.rs:13 *);
  SHARD_COMMITTEE_PERIOD := 256 (* configs/goerli.rs:14 *);
  ETH1_FOLLOW_DISTANCE := 2048 (* configs/goerli.rs:15 *);
  INACTIVITY_SCORE_BIAS := 4 (* configs/goerli.rs:33 *);
  INACTIVITY_SCORE_RECOVERY_RATE := 16 (* configs/goerli.rs:34 *);
  EJECTION_BALANCE := 16000000000 (* configs/goerli.rs:16 *);
  MIN_PER_EPOCH_CHURN_LIMIT := 4 (* configs/goerli.rs:17 *);
  MAX_PER_EPOCH_ACTIVATION_CHURN_LIMIT := 8 (* configs/goerli.rs:18 *);
  MIN_PER_EPOCH_CHURN_LIMIT_ELECTRA := 128000000000 (* configs/goerli.rs:20 *);
  MAX_PER_EPOCH_ACTIVATION_EXIT_CHURN_LIMIT := 256000000000 (* configs/goerli.rs:21 *);
  CHURN_LIMIT_QUOTIENT := 65536 (* configs/goerli.rs:19 *);
  PROPOSER_SCORE_BOOST := 40 (* configs/goerli.rs:35 *);
  DEPOSIT_CHAIN_ID := 5 (* configs/goerli.rs:36 *);
  DEPOSIT_NETWORK_ID := 5 (* configs/goerli.rs:37 *)
|}.

Definition ctx_sepolia : Ctx := {|
  MAX_COMMITTEES_PER_SLOT := 64 (* phase0/presets/mainnet.rs:5 *);
  TARGET_COMMITTEE_SIZE := 128 (* phase0/presets/mainnet.rs:6 *);
  MAX_VALIDATORS_PER_COMMITTEE := 2048 (* phase0/presets/mainnet.rs:7 *);
  SHUFFLE_ROUND_COUNT := 90 (* phase0/presets/mainnet.rs:8 *);
  HYSTERESIS_QUOTIENT := 4 (* phase0/presets/mainnet.rs:9 *);
  HYSTERESIS_DOWNWARD_MULTIPLIER := 1 (* phase0/presets/mainnet.rs:10 *);
  HYSTERESIS_UPWARD_MULTIPLIER := 5 (* phase0/presets/mainnet.rs:11 *);
  MIN_DEPOSIT_AMOUNT := 1000000000 (* phase0/presets/mainnet.rs:12 *);
  MAX_EFFECTIVE_BALANCE := 32000000000 (* phase0/presets/mainnet.rs:13 *);
  EFFECTIVE_BALANCE_INCREMENT := 1000000000 (* phase0/presets/mainnet.rs:14 *);
  MIN_ATTESTATION_INCLUSION_DELAY := 1 (* phase0/presets/mainnet.rs:15 *);
  SLOTS_PER_EPOCH := 32 (* phase0/presets/mainnet.rs:16 *);
  MIN_SEED_LOOKAHEAD := 1 (* phase0/presets/mainnet.rs:17 *);
  MAX_SEED_LOOKAHEAD := 4 (* phase0/presets/mainnet.rs:18 *);
  MIN_EPOCHS_TO_INACTIVITY_PENALTY := 4 (* phase0/presets/mainnet.rs:19 *);
  EPOCHS_PER_ETH1_VOTING_PERIOD := 64 (* phase0/presets/mainnet.rs:20 *);
  SLOTS_PER_HISTORICAL_ROOT := 8192 (* phase0/presets/mainnet.rs:21 *);
  EPOCHS_PER_HISTORICAL_VECTOR := 65536 (* phase0/presets/mainnet.rs:22 *);
  EPOCHS_PER_SLASHINGS_VECTOR := 8192 (* phase0/presets/mainnet.rs:23 *);
  HISTORICAL_ROOTS_LIMIT := 16777216 (* phase0/presets/mainnet.rs:24 *);
  VALIDATOR_REGISTRY_LIMIT := 1099511627776 (* phase0/presets/mainnet.rs:25 *);
  BASE_REWARD_FACTOR := 64 (* phase0/presets/mainnet.rs:26 *);
  WHISTLEBLOWER_REWARD_QUOTIENT := 512 (* phase0/presets/mainnet.rs:27 *);
  PROPOSER_REWARD_QUOTIENT := 8 (* phase0/presets/mainnet.rs:28 *);
  INACTIVITY_PENALTY_QUOTIENT := 67108864 (* phase0/presets/mainnet.rs:29 *);
  MIN_SLASHING_PENALTY_QUOTIENT := 128 (* phase0/presets/mainnet.rs:30 *);
  PROPORTIONAL_SLASHING_MULTIPLIER := 1 (* phase0/presets/mainnet.rs:31 *);
  MAX_PROPOSER_SLASHINGS := 16 (* phase0/presets/mainnet.rs:32 *);
  MAX_ATTESTER_SLASHINGS := 2 (* phase0/presets/mainnet.rs:33 *);
  MAX_ATTESTATIONS := 128 (* phase0/presets/mainnet.rs:34 *);
  MAX_DEPOSITS := 16 (* phase0/presets/mainnet.rs:35 *);
  MAX_VOLUNTARY_EXITS := 16 (* phase0/presets/mainnet.rs:36 *);
  INACTIVITY_PENALTY_QUOTIENT_ALTAIR := 50331648 (* altair/presets/mainnet.rs:16 *);
  MIN_SLASHING_PENALTY_QUOTIENT_ALTAIR := 64 (* altair/presets/mainnet.rs:17 *);
  PROPORTIONAL_SLASHING_MULTIPLIER_ALTAIR := 2 (* altair/presets/mainnet.rs:18 *);
  SYNC_COMMITTEE_SIZE := 512 (* altair/presets/mainnet.rs:19 *);
  EPOCHS_PER_SYNC_COMMITTEE_PERIOD := 256 (* altair/presets/mainnet.rs:20 *);
  MIN_SYNC_COMMITTEE_PARTICIPANTS := 1 (* altair/presets/mainnet.rs:21 *);
  UPDATE_TIMEOUT := 8192 (* altair/presets/mainnet.rs:22 *);
  INACTIVITY_PENALTY_QUOTIENT_BELLATRIX := 16777216 (* bellatrix/presets/mainnet.rs:18 *);
  MIN_SLASHING_PENALTY_QUOTIENT_BELLATRIX := 32 (* bellatrix/presets/mainnet.rs:19 *);
  PROPORTIONAL_SLASHING_MULTIPLIER_BELLATRIX := 3 (* bellatrix/presets/mainnet.rs:20 *);
  MAX_BYTES_PER_TRANSACTION := 1073741824 (* bellatrix/presets/mainnet.rs:21 *);
  MAX_TRANSACTIONS_PER_PAYLOAD := 1048576 (* bellatrix/presets/mainnet.rs:22 *);
  BYTES_PER_LOGS_BLOOM := 256 (* bellatrix/presets/mainnet.rs:23 *);
  MAX_EXTRA_DATA_BYTES := 32 (* bellatrix/presets/mainnet.rs:24 *);
  MAX_BLS_TO_EXECUTION_CHANGES := 16 (* capella/presets/mainnet.rs:19 *);
  MAX_WITHDRAWALS_PER_PAYLOAD := 16 (* capella/presets/mainnet.rs:18 *);
  MAX_VALIDATORS_PER_WITHDRAWALS_SWEEP := 16384 (* capella/presets/mainnet.rs:20 *);
  FIELD_ELEMENTS_PER_BLOB := 4096 (* deneb/presets/mainnet.rs:19 *);
  MAX_BLOB_COMMITMENTS_PER_BLOCK := 4096 (* deneb/presets/mainnet.rs:20 *);
  MAX_BLOBS_PER_BLOCK := 6 (* deneb/presets/mainnet.rs:21 *);
  MIN_ACTIVATION_BALANCE := 32000000000 (* electra/presets/mainnet.rs:6 *);
  MAX_EFFECTIVE_BALANCE_ELECTRA := 2048000000000 (* electra/presets/mainnet.rs:7 *);
  MIN_SLASHING_PENALTY_QUOTIENT_ELECTRA := 4096 (* electra/presets/mainnet.rs:8 *);
  WHISTLEBLOWER_REWARD_QUOTIENT_ELECTRA := 4096 (* electra/presets/mainnet.rs:9 *);
  PENDING_BALANCE_DEPOSITS_LIMIT := 134217728 (* electra/presets/mainnet.rs:10 *);
  PENDING_PARTIAL_WITHDRAWALS_LIMIT := 134217728 (* electra/presets/mainnet.rs:11 *);
  PENDING_CONSOLIDATIONS_LIMIT := 262144 (* electra/presets/mainnet.rs:12 *);
  MAX_ATTESTER_SLASHINGS_ELECTRA := 1 (* electra/presets/mainnet.rs:13 *);
  MAX_ATTESTATIONS_ELECTRA := 8 (* electra/presets/mainnet.rs:14 *);
  MAX_CONSOLIDATIONS := 1 (* electra/presets/mainnet.rs:15 *);
  MAX_DEPOSIT_RECEIPTS_PER_PAYLOAD := 8192 (* electra/presets/mainnet.rs:16 *);
  MAX_WITHDRAWAL_REQUESTS_PER_PAYLOAD := 16 (* electra/presets/mainnet.rs:17 *);
  MAX_PENDING_PARTIALS_PER_WITHDRAWALS_SWEEP := 8 (* electra/presets/mainnet.rs:18 *);
  TERMINAL_BLOCK_HASH_ACTIVATION_EPOCH := 18446744073709551615 (* configs/sepolia.rs:22 *);
  MIN_GENESIS_ACTIVE_VALIDATOR_COUNT := 1300 (* configs/sepolia.rs:7 *);
  MIN_GENESIS_TIME := 1655647200 (* configs/sepolia.rs:8 *);
  GENESIS_FORK_VERSION := [144; 0; 0; 105] (* configs/sepolia.rs:9 *);
  GENESIS_DELAY := 86400 (* configs/sepolia.rs:10 *);
  ALTAIR_FORK_VERSION := [144; 0; 0; 112] (* configs/sepolia.rs:23 *);
  ALTAIR_FORK_EPOCH := 50 (* configs/sepolia.rs:24 *);
  BELLATRIX_FORK_VERSION := [144; 0; 0; 113] (* configs/sepolia.rs:25 *);
  BELLATRIX_FORK_EPOCH := 100 (* configs/sepolia.rs:26 *);
  CAPELLA_FORK_VERSION := [144; 0; 0; 114] (* configs/sepolia.rs:27 *);
  CAPELLA_FORK_EPOCH := 56832 (* configs/sepolia.rs:28 *);
  DENEB_FORK_VERSION := [144; 0; 0; 115] (* configs/sepolia.rs:29 *);
  DENEB_FORK_EPOCH := 132608 (* configs/sepolia.rs:30 *);
  ELECTRA_FORK_VERSION := [144; 0; 0; 116] (* configs/sepolia.rs:31 *);
  ELECTRA_FORK_EPOCH := 18446744073709551615 (* configs/sepolia.rs:32 *);
  SECONDS_PER_SLOT := 12 (* configs/sepolia.rs:11 *);
  SECONDS_PER_ETH1_BLOCK := 14 (* configs/sepolia.rs:12 *);
  MIN_VALIDATOR_WITHDRAWABILITY_DELAY := 256 (* configs/sepolia.rs:13 *);
  SHARD_COMMITTEE_PERIOD := 256 (* configs/sepolia.rs:14 *);
  ETH1_FOLLOW_DISTANCE := 2048 (* configs/sepolia.rs:15 *);
  INACTIVITY_SCORE_BIAS := 4 (* configs/sepolia.rs:33 *);
  INACTIVITY_SCORE_RECOVERY_RATE := 16 (* configs/sepolia.rs:34 *);
  EJECTION_BALANCE := 16000000000 (* configs/sepolia.rs:16 *);
  MIN_PER_EPOCH_CHURN_LIMIT := 4 (* configs/sepolia.rs:17 *);
  MAX_PER_EPOCH_ACTIVATION_CHURN_LIMIT := 8 (* configs/sepolia.rs:18 *);
  MIN_PER_EPOCH_CHURN_LIMIT_ELECTRA := 128000000000 (* configs/sepolia.rs:19 *);
  MAX_PER_EPOCH_ACTIVATION_EXIT_CHURN_LIMIT := 256000000000 (* configs/sepolia.rs:20 *);
  CHURN_LIMIT_QUOTIENT := 65536 (* configs/sepolia.rs:21 *);
  PROPOSER_SCORE_BOOST := 40 (* configs/sepolia.rs:35 *);
  DEPOSIT_CHAIN_ID := 11155111 (* configs/sepolia.rs:36 *);
  DEPOSIT_NETWORK_ID := 11155111 (* configs/sepolia.rs:37 *)
|}.

Definition ctx_holesky : Ctx := {|
  MAX_COMMITTEES_PER_SLOT := 64 (* phase0/presets/mainnet.rs:5 *);
  TARGET_COMMITTEE_SIZE := 128 (* phase0/presets/mainnet.rs:6 *);
  MAX_VALIDATORS_PER_COMMITTEE := 2048 (* phase0/presets/mainnet.rs:7 *);
  SHUFFLE_ROUND_COUNT := 90 (* phase0/presets/mainnet.rs:8 *);
  HYSTERESIS_QUOTIENT := 4 (* phase0/presets/mainnet.rs:9 *);
  HYSTERESIS_DOWNWARD_MULTIPLIER := 1 (* phase0/presets/mainnet.rs:10 *);
  HYSTERESIS_UPWARD_MULTIPLIER := 5 (* phase0/presets/mainnet.rs:11 *);
  MIN_DEPOSIT_AMOUNT := 1000000000 (* phase0/presets/mainnet.rs:12 *);
  MAX_EFFECTIVE_BALANCE := 32000000000 (* phase0/presets/mainnet.rs:13 *);
  EFFECTIVE_BALANCE_INCREMENT := 1000000000 (* phase0/presets/mainnet.rs:14 *);
  MIN_ATTESTATION_INCLUSION_DELAY := 1 (* phase0/presets/mainnet.rs:15 *);
  SLOTS_PER_EPOCH := 32 (* phase0/presets/mainnet.rs:16 *);
  MIN_SEED_LOOKAHEAD := 1 (* phase0/presets/mainnet.rs:17 *);
  MAX_SEED_LOOKAHEAD := 4 (* phase0/presets/mainnet.rs:18 *);
  MIN_EPOCHS_TO_INACTIVITY_PENALTY := 4 (* phase0/presets/mainnet.rs:19 *);
  EPOCHS_PER_ETH1_VOTING_PERIOD := 64 (* phase0/presets/mainnet.rs:20 *);
  SLOTS_PER_HISTORICAL_ROOT := 8192 (* phase0/presets/mainnet.rs:21 *);
  EPOCHS_PER_HISTORICAL_VECTOR := 65536 (* phase0/presets/mainnet.rs:22 *);
  EPOCHS_PER_SLASHINGS_VECTOR := 8192 (* phase0/presets/mainnet.rs:23 *);
  HISTORICAL_ROOTS_LIMIT := 16777216 (* phase0/presets/mainnet.rs:24 *);
  VALIDATOR_REGISTRY_LIMIT := 1099511627776 (* phase0/presets/mainnet.rs:25 *);
  BASE_REWARD_FACTOR := 64 (* phase0/presets/mainnet.rs:26 *);
  WHISTLEBLOWER_REWARD_QUOTIENT := 512 (* phase0/presets/mainnet.rs:27 *);
  PROPOSER_REWARD_QUOTIENT := 8 (* phase0/presets/mainnet.rs:28 *);
  INACTIVITY_PENALTY_QUOTIENT := 67108864 (* phase0/presets/mainnet.rs:29 *);
  MIN_SLASHING_PENALTY_QUOTIENT := 128 (* phase0/presets/mainnet.rs:30 *);
  PROPORTIONAL_SLASHING_MULTIPLIER := 1 (* phase0/presets/mainnet.rs:31 *);
  MAX_PROPOSER_SLASHINGS := 16 (* phase0/presets/mainnet.rs:32 *);
  MAX_ATTESTER_SLASHINGS := 2 (* phase0/presets/mainnet.rs:33 *);
  MAX_ATTESTATIONS := 128 (* phase0/presets/mainnet.rs:34 *);
  MAX_DEPOSITS := 16 (* phase0/presets/mainnet.rs:35 *);
  MAX_VOLUNTARY_EXITS := 16 (* phase0/presets/mainnet.rs:36 *);
  INACTIVITY_PENALTY_QUOTIENT_ALTAIR := 50331648 (* altair/presets/mainnet.rs:16 *);
  MIN_SLASHING_PENALTY_QUOTIENT_ALTAIR := 64 (* altair/presets/mainnet.rs:17 *);
  PROPORTIONAL_SLASHING_MULTIPLIER_ALTAIR := 2 (* altair/presets/mainnet.rs:18 *);
  SYNC_COMMITTEE_SIZE := 512 (* altair/presets/mainnet.rs:19 *);
  EPOCHS_PER_SYNC_COMMITTEE_PERIOD := 256 (* altair/presets/mainnet.rs:20 *);
  MIN_SYNC_COMMITTEE_PARTICIPANTS := 1 (* altair/presets/mainnet.rs:21 *);
  UPDATE_TIMEOUT := 8192 (* altair/presets/mainnet.rs:22 *);
  INACTIVITY_PENALTY_QUOTIENT_BELLATRIX := 16777216 (* bellatrix/presets/mainnet.rs:18 *);
  MIN_SLASHING_PENALTY_QUOTIENT_BELLATRIX := 32 (* bellatrix/presets/mainnet.rs:19 *);
  PROPORTIONAL_SLASHING_MULTIPLIER_BELLATRIX := 3 (* bellatrix/presets/mainnet.rs:20 *);
  MAX_BYTES_PER_TRANSACTION := 1073741824 (* bellatrix/presets/mainnet.rs:21 *);
  MAX_TRANSACTIONS_PER_PAYLOAD := 1048576 (* bellatrix/presets/mainnet.rs:22 *);
  BYTES_PER_LOGS_BLOOM := 256 (* bellatrix/presets/mainnet.rs:23 *);
  MAX_EXTRA_DATA_BYTES := 32 (* bellatrix/presets/mainnet.rs:24 *);
  MAX_BLS_TO_EXECUTION_CHANGES := 16 (* capella/presets/mainnet.rs:19 *);
  MAX_WITHDRAWALS_PER_PAYLOAD := 16 (* capella/presets/mainnet.rs:18 *);
  MAX_VALIDATORS_PER_WITHDRAWALS_SWEEP := 16384 (* capella/presets/mainnet.rs:20 *);
  FIELD_ELEMENTS_PER_BLOB := 4096 (* deneb/presets/mainnet.rs:19 *);
  MAX_BLOB_COMMITMENTS_PER_BLOCK := 4096 (* deneb/presets/mainnet.rs:20 *);
  MAX_BLOBS_PER_BLOCK := 6 (* deneb/presets/mainnet.rs:21 *);
  MIN_ACTIVATION_BALANCE := 32000000000 (* electra/presets/mainnet.rs:6 *);
  MAX_EFFECTIVE_BALANCE_ELECTRA := 2048000000000 (* electra/presets/mainnet.rs:7 *);
  MIN_SLASHING_PENALTY_QUOTIENT_ELECTRA := 4096 (* electra/presets/mainnet.rs:8 *);
  WHISTLEBLOWER_REWARD_QUOTIENT_ELECTRA := 4096 (* electra/presets/mainnet.rs:9 *);
  PENDING_BALANCE_DEPOSITS_LIMIT := 134217728 (* electra/presets/mainnet.rs:10 *);
  PENDING_PARTIAL_WITHDRAWALS_LIMIT := 134217728 (* electra/presets/mainnet.rs:11 *);
  PENDING_CONSOLIDATIONS_LIMIT := 262144 (* electra/presets/mainnet.rs:12 *);
  MAX_ATTESTER_SLASHINGS_ELECTRA := 1 (* electra/presets/mainnet.rs:13 *);
  MAX_ATTESTATIONS_ELECTRA := 8 (* electra/presets/mainnet.rs:14 *);
  MAX_CONSOLIDATIONS := 1 (* electra/presets/mainnet.rs:15 *);
  MAX_DEPOSIT_RECEIPTS_PER_PAYLOAD := 8192 (* electra/presets/mainnet.rs:16 *);
  MAX_WITHDRAWAL_REQUESTS_PER_PAYLOAD := 16 (* electra/presets/mainnet.rs:17 *);
  MAX_PENDING_PARTIALS_PER_WITHDRAWALS_SWEEP := 8 (* electra/presets/mainnet.rs:18 *);
  TERMINAL_BLOCK_HASH_ACTIVATION_EPOCH := 18446744073709551615 (* configs/holesky.rs:23 *);
  MIN_GENESIS_ACTIVE_VALIDATOR_COUNT := 16384 (* configs/holesky.rs:7 *);
  MIN_GENESIS_TIME := 1695902100 (* configs/holesky.rs:9 *);
  GENESIS_FORK_VERSION := [1; 1; 112; 0] (* configs/holesky.rs:10 *);
  GENESIS_DELAY := 300 (* configs/holesky.rs:11 *);
  ALTAIR_FORK_VERSION := [2; 1; 112; 0] (* configs/holesky.rs:24 *);
  ALTAIR_FORK_EPOCH := 0 (* configs/holesky.rs:25 *);
  BELLATRIX_FORK_VERSION := [3; 1; 112; 0] (* configs/holesky.rs:26 *);
  BELLATRIX_FORK_EPOCH := 0 (* configs/holesky.rs:27 *);
  CAPELLA_FORK_VERSION := [4; 1; 112; 0] (* configs/holesky.rs:28 *);
  CAPELLA_FORK_EPOCH := 256 (* configs/holesky.rs:29 *);
  DENEB_FORK_VERSION := [5; 1; 112; 0] (* configs/holesky.rs:30 *);
  DENEB_FORK_EPOCH := 29696 (* configs/holesky.rs:31 *);
  ELECTRA_FORK_VERSION := [6; 1; 112; 0] (* configs/holesky.rs:32 *);
  ELECTRA_FORK_EPOCH := 18446744073709551615 (* configs/holesky.rs:33 *);
  SECONDS_PER_SLOT := 12 (* configs/holesky.rs:12 *);
  SECONDS_PER_ETH1_BLOCK := 14 (* configs/holesky.rs:13 *);
  MIN_VALIDATOR_WITHDRAWABILITY_DELAY := 256 (* configs/holesky.rs:14 *);
  SHARD_COMMITTEE_PERIOD := 256 (* configs/holesky.rs:15 *);
  ETH1_FOLLOW_DISTANCE := 2048 (* configs/holesky.rs:16 *);
  INACTIVITY_SCORE_BIAS := 4 (* configs/holesky.rs:34 *);
  INACTIVITY_SCORE_RECOVERY_RATE := 16 (* configs/holesky.rs:35 *);
  EJECTION_BALANCE := 28000000000 (* configs/holesky.rs:17 *);
  MIN_PER_EPOCH_CHURN_LIMIT := 4 (* configs/holesky.rs:18 *);
  MAX_PER_EPOCH_ACTIVATION_CHURN_LIMIT := 8 (* configs/holesky.rs:19 *);
  MIN_PER_EPOCH_CHURN_LIMIT_ELECTRA := 128000000000 (* configs/holesky.rs:21 *);
  MAX_PER_EPOCH_ACTIVATION_EXIT_CHURN_LIMIT := 256000000000 (* configs/holesky.rs:22 *);
  CHURN_LIMIT_QUOTIENT := 65536 (* configs/holesky.rs:20 *);
  PROPOSER_SCORE_BOOST := 40 (* configs/holesky.rs:36 *);
  DEPOSIT_CHAIN_ID := 17000 (* configs/holesky.rs:37 *);
  DEPOSIT_NETWORK_ID := 17000 (* configs/holesky.rs:38 *)
|}.

Definition ctx_hoodi : Ctx := {|
  MAX_COMMITTEES_PER_SLOT := 64 (* phase0/presets/mainnet.rs:5 *);
  TARGET_COMMITTEE_SIZE := 128 (* phase0/presets/mainnet.rs:6 *);
  MAX_VALIDATORS_PER_COMMITTEE := 2048 (* phase0/presets/mainnet.rs:7 *);
  SHUFFLE_ROUND_COUNT := 90 (* phase0/presets/mainnet.rs:8 *);
  HYSTERESIS_QUOTIENT := 4 (* phase0/presets/mainnet.rs:9 *);
  HYSTERESIS_DOWNWARD_MULTIPLIER := 1 (* phase0/presets/mainnet.rs:10 *);
  HYSTERESIS_UPWARD_MULTIPLIER := 5 (* phase0/presets/mainnet.rs:11 *);
  MIN_DEPOSIT_AMOUNT := 1000000000 (* phase0/presets/mainnet.rs:12 *);
  MAX_EFFECTIVE_BALANCE := 32000000000 (* phase0/presets/mainnet.rs:13 *);
  EFFECTIVE_BALANCE_INCREMENT := 1000000000 (* phase0/presets/mainnet.rs:14 *);
  MIN_ATTESTATION_INCLUSION_DELAY := 1 (* phase0/presets/mainnet.rs:15 *);
  SLOTS_PER_EPOCH := 32 (* phase0/presets/mainnet.rs:16 *);
  MIN_SEED_LOOKAHEAD := 1 (* phase0/presets/mainnet.rs:17 *);
  MAX_SEED_LOOKAHEAD := 4 (* phase0/presets/mainnet.rs:18 *);
  MIN_EPOCHS_TO_INACTIVITY_PENALTY := 4 (* phase0/presets/mainnet.rs:19 *);
  EPOCHS_PER_ETH1_VOTING_PERIOD := 64 (* phase0/presets/mainnet.rs:20 *);
  SLOTS_PER_HISTORICAL_ROOT := 8192 (* phase0/presets/mainnet.rs:21 *);
  EPOCHS_PER_HISTORICAL_VECTOR := 65536 (* phase0/presets/mainnet.rs:22 *);
  EPOCHS_PER_SLASHINGS_VECTOR := 8192 (* phase0/presets/mainnet.rs:23 *);
  HISTORICAL_ROOTS_LIMIT := 16777216 (* phase0/presets/mainnet.rs:24 *);
  VALIDATOR_REGISTRY_LIMIT := 1099511627776 (* phase0/presets/mainnet.rs:25 *);
  BASE_REWARD_FACTOR := 64 (* phase0/presets/mainnet.rs:26 *);
  WHISTLEBLOWER_REWARD_QUOTIENT := 512 (* phase0/presets/mainnet.rs:27 *);
  PROPOSER_REWARD_QUOTIENT := 8 (* phase0/presets/mainnet.rs:28 *);
  INACTIVITY_PENALTY_QUOTIENT := 67108864 (* phase0/presets/mainnet.rs:29 *);
  MIN_SLASHING_PENALTY_QUOTIENT := 128 (* phase0/presets/mainnet.rs:30 *);
  PROPORTIONAL_SLASHING_MULTIPLIER := 1 (* phase0/presets/mainnet.rs:31 *);
  MAX_PROPOSER_SLASHINGS := 16 (* phase0/presets/mainnet.rs:32 *);
  MAX_ATTESTER_SLASHINGS := 2 (* phase0/presets/mainnet.rs:33 *);
  MAX_ATTESTATIONS := 128 (* phase0/presets/mainnet.rs:34 *);
  MAX_DEPOSITS := 16 (* phase0/presets/mainnet.rs:35 *);
  MAX_VOLUNTARY_EXITS := 16 (* phase0/presets/mainnet.rs:36 *);
  INACTIVITY_PENALTY_QUOTIENT_ALTAIR := 50331648 (* altair/presets/mainnet.rs:16 *);
  MIN_SLASHING_PENALTY_QUOTIENT_ALTAIR := 64 (* altair/presets/mainnet.rs:17 *);
  PROPORTIONAL_SLASHING_MULTIPLIER_ALTAIR := 2 (* altair/presets/mainnet.rs:18 *);
  SYNC_COMMITTEE_SIZE := 512 (* altair/presets/mainnet.rs:19 *);
  EPOCHS_PER_SYNC_COMMITTEE_PERIOD := 256 (* altair/presets/mainnet.rs:20 *);
  MIN_SYNC_COMMITTEE_PARTICIPANTS := 1 (* altair/presets/mainnet.rs:21 *);
  UPDATE_TIMEOUT := 8192 (* altair/presets/mainnet.rs:22 *);
  INACTIVITY_PENALTY_QUOTIENT_BELLATRIX := 16777216 (* bellatrix/presets/mainnet.rs:18 *);
  MIN_SLASHING_PENALTY_QUOTIENT_BELLATRIX := 32 (* bellatrix/presets/mainnet.rs:19 *);
  PROPORTIONAL_SLASHING_MULTIPLIER_BELLATRIX := 3 (* bellatrix/presets/mainnet.rs:20 *);
  MAX_BYTES_PER_TRANSACTION := 1073741824 (* bellatrix/presets/mainnet.rs:21 *);
  MAX_TRANSACTIONS_PER_PAYLOAD := 1048576 (* bellatrix/presets/mainnet.rs:22 *);
  BYTES_PER_LOGS_BLOOM := 256 (* bellatrix/presets/mainnet.rs:23 *);
  MAX_EXTRA_DATA_BYTES := 32 (* bellatrix/presets/mainnet.rs:24 *);
  MAX_BLS_TO_EXECUTION_CHANGES := 16 (* capella/presets/mainnet.rs:19 *);
  MAX_WITHDRAWALS_PER_PAYLOAD := 16 (* capella/presets/mainnet.rs:18 *);
  MAX_VALIDATORS_PER_WITHDRAWALS_SWEEP := 16384 (* capella/presets/mainnet.rs:20 *);
  FIELD_ELEMENTS_PER_BLOB := 4096 (* deneb/presets/mainnet.rs:19 *);
  MAX_BLOB_COMMITMENTS_PER_BLOCK := 4096 (* deneb/presets/mainnet.rs:20 *);
  MAX_BLOBS_PER_BLOCK := 6 (* deneb/presets/mainnet.rs:21 *);
  MIN_ACTIVATION_BALANCE := 32000000000 (* electra/presets/mainnet.rs:6 *);
  MAX_EFFECTIVE_BALANCE_ELECTRA := 2048000000000 (* electra/presets/mainnet.rs:7 *);
  MIN_SLASHING_PENALTY_QUOTIENT_ELECTRA := 4096 (* electra/presets/mainnet.rs:8 *);
  WHISTLEBLOWER_REWARD_QUOTIENT_ELECTRA := 4096 (* electra/presets/mainnet.rs:9 *);
  PENDING_BALANCE_DEPOSITS_LIMIT := 134217728 (* electra/presets/mainnet.rs:10 *);
  PENDING_PARTIAL_WITHDRAWALS_LIMIT := 134217728 (* electra/presets/mainnet.rs:11 *);
  PENDING_CONSOLIDATIONS_LIMIT := 262144 (* electra/presets/mainnet.rs:12 *);
  MAX_ATTESTER_SLASHINGS_ELECTRA := 1 (* electra/presets/mainnet.rs:13 *);
  MAX_ATTESTATIONS_ELECTRA := 8 (* electra/presets/mainnet.rs:14 *);
  MAX_CONSOLIDATIONS := 1 (* electra/presets/mainnet.rs:15 *);
  MAX_DEPOSIT_RECEIPTS_PER_PAYLOAD := 8192 (* electra/presets/mainnet.rs:16 *);
  MAX_WITHDRAWAL_REQUESTS_PER_PAYLOAD := 16 (* electra/presets/mainnet.rs:17 *);
  MAX_PENDING_PARTIALS_PER_WITHDRAWALS_SWEEP := 8 (* electra/presets/mainnet.rs:18 *);
  TERMINAL_BLOCK_HASH_ACTIVATION_EPOCH := 18446744073709551615 (* configs/hoodi.rs:23 *);
  MIN_GENESIS_ACTIVE_VALIDATOR_COUNT := 16384 (* configs/hoodi.rs:7 *);
  MIN_GENESIS_TIME := 1742212800 (* configs/hoodi.rs:9 *);
  GENESIS_FORK_VERSION := [16; 0; 9; 16] (* configs/hoodi.rs:10 *);
  GENESIS_DELAY := 600 (* configs/hoodi.rs:11 *);
  ALTAIR_FORK_VERSION := [32; 0; 9; 16] (* configs/hoodi.rs:24 *);
  ALTAIR_FORK_EPOCH := 0 (* configs/hoodi.rs:25 *);
  BELLATRIX_FORK_VERSION := [48; 0; 9; 16] (* configs/hoodi.rs:26 *);
  BELLATRIX_FORK_EPOCH := 0 (* configs/hoodi.rs:27 *);
  CAPELLA_FORK_VERSION := [64; 0; 9; 16] (* configs/hoodi.rs:28 *);
  CAPELLA_FORK_EPOCH := 0 (* configs/hoodi.rs:29 *);
  DENEB_FORK_VERSION := [80; 0; 9; 16] (* configs/hoodi.rs:30 *);
  DENEB_FORK_EPOCH := 0 (* configs/hoodi.rs:31 *);
  ELECTRA_FORK_VERSION := [96; 0; 9; 16] (* configs/hoodi.rs:32 *);
  ELECTRA_FORK_EPOCH := 2048 (* configs/hoodi.rs:33 *);
  SECONDS_PER_SLOT := 12 (* configs/hoodi.rs:12 *);
  SECONDS_PER_ETH1_BLOCK := 12 (* configs/hoodi.rs:13 *);
  MIN_VALIDATOR_WITHDRAWABILITY_DELAY := 256 (* configs/hoodi.rs:14 *);
  SHARD_COMMITTEE_PERIOD := 256 (* configs/hoodi.rs:15 *);
  ETH1_FOLLOW_DISTANCE := 2048 (* configs/hoodi.rs:16 *);
  INACTIVITY_SCORE_BIAS := 4 (* configs/hoodi.rs:34 *);
  INACTIVITY_SCORE_RECOVERY_RATE := 16 (* configs/hoodi.rs:35 *);
  EJECTION_BALANCE := 16000000000 (* configs/hoodi.rs:17 *);
  MIN_PER_EPOCH_CHURN_LIMIT := 4 (* configs/hoodi.rs:18 *);
  MAX_PER_EPOCH_ACTIVATION_CHURN_LIMIT := 8 (* configs/hoodi.rs:19 *);
  MIN_PER_EPOCH_CHURN_LIMIT_ELECTRA := 128000000000 (* configs/hoodi.rs:21 *);
  MAX_PER_EPOCH_ACTIVATION_EXIT_CHURN_LIMIT := 256000000000 (* configs/hoodi.rs:22 *);
  CHURN_LIMIT_QUOTIENT := 65536 (* configs/hoodi.rs:20 *);
  PROPOSER_SCORE_BOOST := 40 (* configs/hoodi.rs:36 *);
  DEPOSIT_CHAIN_ID := 560048 (* configs/hoodi.rs:37 *);
  DEPOSIT_NETWORK_ID := 560048 (* configs/hoodi.rs:38 *)
|}.

