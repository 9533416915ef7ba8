(** * Ctx: the runtime configuration [Context]   GENERATED by tools/gen_presets.py

    Models struct [Context] (state_transition/context.rs:19-149).  Kept: every integer and version field, in upper
    case.  Dropped: network name, terminal difficulty/hash, deposit contract address, execution engine and KZG handles.
    Simplification: the const-generic parameters of the containers (type-level [SLOTS_PER_HISTORICAL_ROOT],
    [EPOCHS_PER_HISTORICAL_VECTOR], [EPOCHS_PER_SLASHINGS_VECTOR], [SYNC_COMMITTEE_SIZE], ...) are identified with the Context
    fields of the same name; the preset modules instantiate both from one constant. *)
From Verif Require Import Base.

Record Ctx : Type := mkCtx {
  MAX_COMMITTEES_PER_SLOT : N (* context.rs:21 *);
  TARGET_COMMITTEE_SIZE : N (* context.rs:22 *);
  MAX_VALIDATORS_PER_COMMITTEE : N (* context.rs:23 *);
  SHUFFLE_ROUND_COUNT : N (* context.rs:24 *);
  HYSTERESIS_QUOTIENT : N (* context.rs:25 *);
  HYSTERESIS_DOWNWARD_MULTIPLIER : N (* context.rs:26 *);
  HYSTERESIS_UPWARD_MULTIPLIER : N (* context.rs:27 *);
  MIN_DEPOSIT_AMOUNT : N (* context.rs:28 *);
  MAX_EFFECTIVE_BALANCE : N (* context.rs:29 *);
  EFFECTIVE_BALANCE_INCREMENT : N (* context.rs:30 *);
  MIN_ATTESTATION_INCLUSION_DELAY : N (* context.rs:31 *);
  SLOTS_PER_EPOCH : N (* context.rs:32 *);
  MIN_SEED_LOOKAHEAD : N (* context.rs:33 *);
  MAX_SEED_LOOKAHEAD : N (* context.rs:34 *);
  MIN_EPOCHS_TO_INACTIVITY_PENALTY : N (* context.rs:35 *);
  EPOCHS_PER_ETH1_VOTING_PERIOD : N (* context.rs:36 *);
  SLOTS_PER_HISTORICAL_ROOT : N (* context.rs:37 *);
  EPOCHS_PER_HISTORICAL_VECTOR : N (* context.rs:38 *);
  EPOCHS_PER_SLASHINGS_VECTOR : N (* context.rs:39 *);
  HISTORICAL_ROOTS_LIMIT : N (* context.rs:40 *);
  VALIDATOR_REGISTRY_LIMIT : N (* context.rs:41 *);
  BASE_REWARD_FACTOR : N (* context.rs:42 *);
  WHISTLEBLOWER_REWARD_QUOTIENT : N (* context.rs:43 *);
  PROPOSER_REWARD_QUOTIENT : N (* context.rs:44 *);
  INACTIVITY_PENALTY_QUOTIENT : N (* context.rs:45 *);
  MIN_SLASHING_PENALTY_QUOTIENT : N (* context.rs:46 *);
  PROPORTIONAL_SLASHING_MULTIPLIER : N (* context.rs:47 *);
  MAX_PROPOSER_SLASHINGS : N (* context.rs:48 *);
  MAX_ATTESTER_SLASHINGS : N (* context.rs:49 *);
  MAX_ATTESTATIONS : N (* context.rs:50 *);
  MAX_DEPOSITS : N (* context.rs:51 *);
  MAX_VOLUNTARY_EXITS : N (* context.rs:52 *);
  INACTIVITY_PENALTY_QUOTIENT_ALTAIR : N (* context.rs:55 *);
  MIN_SLASHING_PENALTY_QUOTIENT_ALTAIR : N (* context.rs:56 *);
  PROPORTIONAL_SLASHING_MULTIPLIER_ALTAIR : N (* context.rs:57 *);
  SYNC_COMMITTEE_SIZE : N (* context.rs:58 *);
  EPOCHS_PER_SYNC_COMMITTEE_PERIOD : N (* context.rs:59 *);
  MIN_SYNC_COMMITTEE_PARTICIPANTS : N (* context.rs:60 *);
  UPDATE_TIMEOUT : N (* context.rs:61 *);
  INACTIVITY_PENALTY_QUOTIENT_BELLATRIX : N (* context.rs:64 *);
  MIN_SLASHING_PENALTY_QUOTIENT_BELLATRIX : N (* context.rs:65 *);
  PROPORTIONAL_SLASHING_MULTIPLIER_BELLATRIX : N (* context.rs:66 *);
  MAX_BYTES_PER_TRANSACTION : N (* context.rs:67 *);
  MAX_TRANSACTIONS_PER_PAYLOAD : N (* context.rs:68 *);
  BYTES_PER_LOGS_BLOOM : N (* context.rs:69 *);
  MAX_EXTRA_DATA_BYTES : N (* context.rs:70 *);
  MAX_BLS_TO_EXECUTION_CHANGES : N (* context.rs:73 *);
  MAX_WITHDRAWALS_PER_PAYLOAD : N (* context.rs:74 *);
  MAX_VALIDATORS_PER_WITHDRAWALS_SWEEP : N (* context.rs:75 *);
  FIELD_ELEMENTS_PER_BLOB : N (* context.rs:78 *);
  MAX_BLOB_COMMITMENTS_PER_BLOCK : N (* context.rs:79 *);
  MAX_BLOBS_PER_BLOCK : N (* context.rs:80 *);
  MIN_ACTIVATION_BALANCE : N (* context.rs:83 *);
  MAX_EFFECTIVE_BALANCE_ELECTRA : N (* context.rs:84 *);
  MIN_SLASHING_PENALTY_QUOTIENT_ELECTRA : N (* context.rs:85 *);
  WHISTLEBLOWER_REWARD_QUOTIENT_ELECTRA : N (* context.rs:86 *);
  PENDING_BALANCE_DEPOSITS_LIMIT : N (* context.rs:87 *);
  PENDING_PARTIAL_WITHDRAWALS_LIMIT : N (* context.rs:88 *);
  PENDING_CONSOLIDATIONS_LIMIT : N (* context.rs:89 *);
  MAX_ATTESTER_SLASHINGS_ELECTRA : N (* context.rs:90 *);
  MAX_ATTESTATIONS_ELECTRA : N (* context.rs:91 *);
  MAX_CONSOLIDATIONS : N (* context.rs:92 *);
  MAX_DEPOSIT_RECEIPTS_PER_PAYLOAD : N (* context.rs:93 *);
  MAX_WITHDRAWAL_REQUESTS_PER_PAYLOAD : N (* context.rs:94 *);
  MAX_PENDING_PARTIALS_PER_WITHDRAWALS_SWEEP : N (* context.rs:95 *);
  TERMINAL_BLOCK_HASH_ACTIVATION_EPOCH : N (* context.rs:102 *);
  MIN_GENESIS_ACTIVE_VALIDATOR_COUNT : N (* context.rs:104 *);
  MIN_GENESIS_TIME : N (* context.rs:105 *);
  GENESIS_FORK_VERSION : bytes (* context.rs:106 *);
  GENESIS_DELAY : N (* context.rs:107 *);
  ALTAIR_FORK_VERSION : bytes (* context.rs:109 *);
  ALTAIR_FORK_EPOCH : N (* context.rs:110 *);
  BELLATRIX_FORK_VERSION : bytes (* context.rs:111 *);
  BELLATRIX_FORK_EPOCH : N (* context.rs:112 *);
  CAPELLA_FORK_VERSION : bytes (* context.rs:113 *);
  CAPELLA_FORK_EPOCH : N (* context.rs:114 *);
  DENEB_FORK_VERSION : bytes (* context.rs:115 *);
  DENEB_FORK_EPOCH : N (* context.rs:116 *);
  ELECTRA_FORK_VERSION : bytes (* context.rs:117 *);
  ELECTRA_FORK_EPOCH : N (* context.rs:118 *);
  SECONDS_PER_SLOT : N (* context.rs:120 *);
  SECONDS_PER_ETH1_BLOCK : N (* context.rs:121 *);
  MIN_VALIDATOR_WITHDRAWABILITY_DELAY : N (* context.rs:122 *);
  SHARD_COMMITTEE_PERIOD : N (* context.rs:123 *);
  ETH1_FOLLOW_DISTANCE : N (* context.rs:124 *);
  INACTIVITY_SCORE_BIAS : N (* context.rs:126 *);
  INACTIVITY_SCORE_RECOVERY_RATE : N (* context.rs:127 *);
  EJECTION_BALANCE : N (* context.rs:128 *);
  MIN_PER_EPOCH_CHURN_LIMIT : N (* context.rs:129 *);
  MAX_PER_EPOCH_ACTIVATION_CHURN_LIMIT : N (* context.rs:130 *);
  MIN_PER_EPOCH_CHURN_LIMIT_ELECTRA : N (* context.rs:131 *);
  MAX_PER_EPOCH_ACTIVATION_EXIT_CHURN_LIMIT : N (* context.rs:132 *);
  CHURN_LIMIT_QUOTIENT : N (* context.rs:133 *);
  PROPOSER_SCORE_BOOST : N (* context.rs:135 *);
  DEPOSIT_CHAIN_ID : N (* context.rs:137 *);
  DEPOSIT_NETWORK_ID : N (* context.rs:138 *)
}.
