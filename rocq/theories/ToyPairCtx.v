(** * A configuration for examples over several epochs: two slots to an epoch

    Generated by tools/gen_tiny.py from Presets.v. *)
From Verif Require Import Base Types Ctx.

Definition ctx_pair : Ctx := {|
  MAX_COMMITTEES_PER_SLOT := 4;
  TARGET_COMMITTEE_SIZE := 4;
  MAX_VALIDATORS_PER_COMMITTEE := 2048;
  SHUFFLE_ROUND_COUNT := 1;
  HYSTERESIS_QUOTIENT := 4;
  HYSTERESIS_DOWNWARD_MULTIPLIER := 1;
  HYSTERESIS_UPWARD_MULTIPLIER := 5;
  MIN_DEPOSIT_AMOUNT := 1000000000;
  MAX_EFFECTIVE_BALANCE := 32000000000;
  EFFECTIVE_BALANCE_INCREMENT := 1000000000;
  MIN_ATTESTATION_INCLUSION_DELAY := 1;
  SLOTS_PER_EPOCH := 2;
  MIN_SEED_LOOKAHEAD := 1;
  MAX_SEED_LOOKAHEAD := 4;
  MIN_EPOCHS_TO_INACTIVITY_PENALTY := 4;
  EPOCHS_PER_ETH1_VOTING_PERIOD := 4;
  SLOTS_PER_HISTORICAL_ROOT := 16;
  EPOCHS_PER_HISTORICAL_VECTOR := 8;
  EPOCHS_PER_SLASHINGS_VECTOR := 2;
  HISTORICAL_ROOTS_LIMIT := 16777216;
  VALIDATOR_REGISTRY_LIMIT := 1099511627776;
  BASE_REWARD_FACTOR := 64;
  WHISTLEBLOWER_REWARD_QUOTIENT := 512;
  PROPOSER_REWARD_QUOTIENT := 8;
  INACTIVITY_PENALTY_QUOTIENT := 33554432;
  MIN_SLASHING_PENALTY_QUOTIENT := 64;
  PROPORTIONAL_SLASHING_MULTIPLIER := 2;
  MAX_PROPOSER_SLASHINGS := 16;
  MAX_ATTESTER_SLASHINGS := 2;
  MAX_ATTESTATIONS := 128;
  MAX_DEPOSITS := 16;
  MAX_VOLUNTARY_EXITS := 16;
  INACTIVITY_PENALTY_QUOTIENT_ALTAIR := 50331648;
  MIN_SLASHING_PENALTY_QUOTIENT_ALTAIR := 64;
  PROPORTIONAL_SLASHING_MULTIPLIER_ALTAIR := 2;
  SYNC_COMMITTEE_SIZE := 4;
  EPOCHS_PER_SYNC_COMMITTEE_PERIOD := 2;
  MIN_SYNC_COMMITTEE_PARTICIPANTS := 1;
  UPDATE_TIMEOUT := 64;
  INACTIVITY_PENALTY_QUOTIENT_BELLATRIX := 16777216;
  MIN_SLASHING_PENALTY_QUOTIENT_BELLATRIX := 32;
  PROPORTIONAL_SLASHING_MULTIPLIER_BELLATRIX := 3;
  MAX_BYTES_PER_TRANSACTION := 1073741824;
  MAX_TRANSACTIONS_PER_PAYLOAD := 1048576;
  BYTES_PER_LOGS_BLOOM := 256;
  MAX_EXTRA_DATA_BYTES := 32;
  MAX_BLS_TO_EXECUTION_CHANGES := 16;
  MAX_WITHDRAWALS_PER_PAYLOAD := 4;
  MAX_VALIDATORS_PER_WITHDRAWALS_SWEEP := 16;
  FIELD_ELEMENTS_PER_BLOB := 4096;
  MAX_BLOB_COMMITMENTS_PER_BLOCK := 16;
  MAX_BLOBS_PER_BLOCK := 6;
  MIN_ACTIVATION_BALANCE := 32000000000;
  MAX_EFFECTIVE_BALANCE_ELECTRA := 2048000000000;
  MIN_SLASHING_PENALTY_QUOTIENT_ELECTRA := 4096;
  WHISTLEBLOWER_REWARD_QUOTIENT_ELECTRA := 4096;
  PENDING_BALANCE_DEPOSITS_LIMIT := 134217728;
  PENDING_PARTIAL_WITHDRAWALS_LIMIT := 64;
  PENDING_CONSOLIDATIONS_LIMIT := 64;
  MAX_ATTESTER_SLASHINGS_ELECTRA := 1;
  MAX_ATTESTATIONS_ELECTRA := 8;
  MAX_CONSOLIDATIONS := 1;
  MAX_DEPOSIT_RECEIPTS_PER_PAYLOAD := 4;
  MAX_WITHDRAWAL_REQUESTS_PER_PAYLOAD := 2;
  MAX_PENDING_PARTIALS_PER_WITHDRAWALS_SWEEP := 1;
  TERMINAL_BLOCK_HASH_ACTIVATION_EPOCH := 18446744073709551615;
  MIN_GENESIS_ACTIVE_VALIDATOR_COUNT := 64;
  MIN_GENESIS_TIME := 1578009600;
  GENESIS_FORK_VERSION := [0; 0; 0; 1];
  GENESIS_DELAY := 300;
  ALTAIR_FORK_VERSION := [1; 0; 0; 1];
  ALTAIR_FORK_EPOCH := 1;
  BELLATRIX_FORK_VERSION := [2; 0; 0; 1];
  BELLATRIX_FORK_EPOCH := 2;
  CAPELLA_FORK_VERSION := [3; 0; 0; 1];
  CAPELLA_FORK_EPOCH := 3;
  DENEB_FORK_VERSION := [4; 0; 0; 1];
  DENEB_FORK_EPOCH := 4;
  ELECTRA_FORK_VERSION := [5; 0; 0; 1];
  ELECTRA_FORK_EPOCH := 5;
  SECONDS_PER_SLOT := 6;
  SECONDS_PER_ETH1_BLOCK := 14;
  MIN_VALIDATOR_WITHDRAWABILITY_DELAY := 256;
  SHARD_COMMITTEE_PERIOD := 3;
  ETH1_FOLLOW_DISTANCE := 16;
  INACTIVITY_SCORE_BIAS := 4;
  INACTIVITY_SCORE_RECOVERY_RATE := 16;
  EJECTION_BALANCE := 16000000000;
  MIN_PER_EPOCH_CHURN_LIMIT := 2;
  MAX_PER_EPOCH_ACTIVATION_CHURN_LIMIT := 4;
  MIN_PER_EPOCH_CHURN_LIMIT_ELECTRA := 64000000000;
  MAX_PER_EPOCH_ACTIVATION_EXIT_CHURN_LIMIT := 128000000000;
  CHURN_LIMIT_QUOTIENT := 32;
  PROPOSER_SCORE_BOOST := 40;
  DEPOSIT_CHAIN_ID := 5;
  DEPOSIT_NETWORK_ID := 5
|}.
