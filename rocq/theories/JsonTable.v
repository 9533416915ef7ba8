(** * The containers with derived JSON text, one definition each

    Generated by rocq/tools/gen_json.py from the struct definitions cited: the keys are the field names after [#[serde(rename)]], in order of declaration;
    the type of a field records the serde attribute it carries. Not in the table, because their decoders are written by hand or use [flatten] or optional
    fields: api_api_error_IndexedError, api_types_CommitteeSummary, api_types_CoordinateWithMetadata, api_types_NetworkIdentity, api_types_PayloadAttributes, api_types_PayloadAttributesEvent, api_types_PeerDescription, api_types_PeerDescriptor, api_types_SyncCommitteeSummary, api_types_ValidatorSummary, api_types_Value, api_types_VersionData, api_types_VersionedValue. *)
From Coq Require Import String.
From Verif Require Import Base JsonCodec.
Local Open Scope string_scope.
Local Open Scope N_scope.

(** ethereum-consensus/src/phase0/operations.rs:66-71 *)
Definition j_phase0_Eth1Data : Ty := TRec [
  ("deposit_root", THex (Exactly (Lit 32)));
  ("deposit_count", TText (2 ^ 64));
  ("block_hash", THex (Exactly (Lit 32)))].

(** ethereum-consensus/src/phase0/beacon_block.rs:83-91 *)
Definition j_phase0_BeaconBlockHeader : Ty := TRec [
  ("slot", TText (2 ^ 64));
  ("proposer_index", TText (2 ^ 64));
  ("parent_root", THex (Exactly (Lit 32)));
  ("state_root", THex (Exactly (Lit 32)));
  ("body_root", THex (Exactly (Lit 32)))].

(** ethereum-consensus/src/phase0/beacon_block.rs:96-99 *)
Definition j_phase0_SignedBeaconBlockHeader : Ty := TRec [
  ("message", j_phase0_BeaconBlockHeader);
  ("signature", THex (Exactly (Lit 96)))].

(** ethereum-consensus/src/phase0/operations.rs:97-100 *)
Definition j_phase0_ProposerSlashing : Ty := TRec [
  ("signed_header_1", j_phase0_SignedBeaconBlockHeader);
  ("signed_header_2", j_phase0_SignedBeaconBlockHeader)].

(** ethereum-consensus/src/phase0/operations.rs:13-17 *)
Definition j_phase0_Checkpoint : Ty := TRec [
  ("epoch", TText (2 ^ 64));
  ("root", THex (Exactly (Lit 32)))].

(** ethereum-consensus/src/phase0/operations.rs:22-30 *)
Definition j_phase0_AttestationData : Ty := TRec [
  ("slot", TText (2 ^ 64));
  ("index", TText (2 ^ 64));
  ("beacon_block_root", THex (Exactly (Lit 32)));
  ("source", j_phase0_Checkpoint);
  ("target", j_phase0_Checkpoint)].

(** ethereum-consensus/src/phase0/operations.rs:35-40 *)
Definition j_phase0_IndexedAttestation : Ty := TRec [
  ("attesting_indices", TTextSeq (AtMost (Const "MAX_VALIDATORS_PER_COMMITTEE")) (2 ^ 64));
  ("data", j_phase0_AttestationData);
  ("signature", THex (Exactly (Lit 96)))].

(** ethereum-consensus/src/phase0/operations.rs:105-108 *)
Definition j_phase0_AttesterSlashing : Ty := TRec [
  ("attestation_1", j_phase0_IndexedAttestation);
  ("attestation_2", j_phase0_IndexedAttestation)].

(** ethereum-consensus/src/phase0/operations.rs:57-61 *)
Definition j_phase0_Attestation : Ty := TRec [
  ("aggregation_bits", TBits (AtMost (Const "MAX_VALIDATORS_PER_COMMITTEE")));
  ("data", j_phase0_AttestationData);
  ("signature", THex (Exactly (Lit 96)))].

(** ethereum-consensus/src/phase0/operations.rs:85-92 *)
Definition j_phase0_DepositData : Ty := TRec [
  ("pubkey", THex (Exactly (Lit 48)));
  ("withdrawal_credentials", THex (Exactly (Lit 32)));
  ("amount", TText (2 ^ 64));
  ("signature", THex (Exactly (Lit 96)))].

(** ethereum-consensus/src/phase0/operations.rs:119-122 *)
Definition j_phase0_Deposit : Ty := TRec [
  ("proof", TSeq (Exactly (Const "DEPOSIT_PROOF_LENGTH")) (THex (Exactly (Lit 32))));
  ("data", j_phase0_DepositData)].

(** ethereum-consensus/src/phase0/operations.rs:127-132 *)
Definition j_phase0_VoluntaryExit : Ty := TRec [
  ("epoch", TText (2 ^ 64));
  ("validator_index", TText (2 ^ 64))].

(** ethereum-consensus/src/phase0/operations.rs:137-140 *)
Definition j_phase0_SignedVoluntaryExit : Ty := TRec [
  ("message", j_phase0_VoluntaryExit);
  ("signature", THex (Exactly (Lit 96)))].

(** ethereum-consensus/src/altair/sync.rs:9-12 *)
Definition j_altair_SyncAggregate : Ty := TRec [
  ("sync_committee_bits", TBits (Exactly (Const "SYNC_COMMITTEE_SIZE")));
  ("sync_committee_signature", THex (Exactly (Lit 96)))].

(** ethereum-consensus/src/altair/beacon_block.rs:13-32 *)
Definition j_altair_BeaconBlockBody : Ty := TRec [
  ("randao_reveal", THex (Exactly (Lit 96)));
  ("eth1_data", j_phase0_Eth1Data);
  ("graffiti", THex (Exactly (Lit 32)));
  ("proposer_slashings", TSeq (AtMost (Const "MAX_PROPOSER_SLASHINGS")) (j_phase0_ProposerSlashing));
  ("attester_slashings", TSeq (AtMost (Const "MAX_ATTESTER_SLASHINGS")) (j_phase0_AttesterSlashing));
  ("attestations", TSeq (AtMost (Const "MAX_ATTESTATIONS")) (j_phase0_Attestation));
  ("deposits", TSeq (AtMost (Const "MAX_DEPOSITS")) (j_phase0_Deposit));
  ("voluntary_exits", TSeq (AtMost (Const "MAX_VOLUNTARY_EXITS")) (j_phase0_SignedVoluntaryExit));
  ("sync_aggregate", j_altair_SyncAggregate)].

(** ethereum-consensus/src/altair/beacon_block.rs:37-61 *)
Definition j_altair_BeaconBlock : Ty := TRec [
  ("slot", TText (2 ^ 64));
  ("proposer_index", TText (2 ^ 64));
  ("parent_root", THex (Exactly (Lit 32)));
  ("state_root", THex (Exactly (Lit 32)));
  ("body", j_altair_BeaconBlockBody)].

(** ethereum-consensus/src/altair/beacon_block.rs:66-85 *)
Definition j_altair_SignedBeaconBlock : Ty := TRec [
  ("message", j_altair_BeaconBlock);
  ("signature", THex (Exactly (Lit 96)))].

(** ethereum-consensus/src/phase0/beacon_state.rs:15-22 *)
Definition j_phase0_Fork : Ty := TRec [
  ("previous_version", THex (Exactly (Lit 4)));
  ("current_version", THex (Exactly (Lit 4)));
  ("epoch", TText (2 ^ 64))].

(** ethereum-consensus/src/phase0/validator.rs:10-26 *)
Definition j_phase0_Validator : Ty := TRec [
  ("pubkey", THex (Exactly (Lit 48)));
  ("withdrawal_credentials", THex (Exactly (Lit 32)));
  ("effective_balance", TText (2 ^ 64));
  ("slashed", TBool);
  ("activation_eligibility_epoch", TText (2 ^ 64));
  ("activation_epoch", TText (2 ^ 64));
  ("exit_epoch", TText (2 ^ 64));
  ("withdrawable_epoch", TText (2 ^ 64))].

(** ethereum-consensus/src/altair/sync.rs:17-22 *)
Definition j_altair_SyncCommittee : Ty := TRec [
  ("pubkeys", TSeq (Exactly (Const "SYNC_COMMITTEE_SIZE")) (THex (Exactly (Lit 48))));
  ("aggregate_pubkey", THex (Exactly (Lit 48)))].

(** ethereum-consensus/src/altair/beacon_state.rs:13-55 *)
Definition j_altair_BeaconState : Ty := TRec [
  ("genesis_time", TText (2 ^ 64));
  ("genesis_validators_root", THex (Exactly (Lit 32)));
  ("slot", TText (2 ^ 64));
  ("fork", j_phase0_Fork);
  ("latest_block_header", j_phase0_BeaconBlockHeader);
  ("block_roots", TSeq (Exactly (Const "SLOTS_PER_HISTORICAL_ROOT")) (THex (Exactly (Lit 32))));
  ("state_roots", TSeq (Exactly (Const "SLOTS_PER_HISTORICAL_ROOT")) (THex (Exactly (Lit 32))));
  ("historical_roots", TSeq (AtMost (Const "HISTORICAL_ROOTS_LIMIT")) (THex (Exactly (Lit 32))));
  ("eth1_data", j_phase0_Eth1Data);
  ("eth1_data_votes", TSeq (AtMost (Const "ETH1_DATA_VOTES_BOUND")) (j_phase0_Eth1Data));
  ("eth1_deposit_index", TText (2 ^ 64));
  ("validators", TSeq (AtMost (Const "VALIDATOR_REGISTRY_LIMIT")) (j_phase0_Validator));
  ("balances", TTextSeq (AtMost (Const "VALIDATOR_REGISTRY_LIMIT")) (2 ^ 64));
  ("randao_mixes", TSeq (Exactly (Const "EPOCHS_PER_HISTORICAL_VECTOR")) (THex (Exactly (Lit 32))));
  ("slashings", TTextSeq (Exactly (Const "EPOCHS_PER_SLASHINGS_VECTOR")) (2 ^ 64));
  ("previous_epoch_participation", TTextSeq (AtMost (Const "VALIDATOR_REGISTRY_LIMIT")) (256));
  ("current_epoch_participation", TTextSeq (AtMost (Const "VALIDATOR_REGISTRY_LIMIT")) (256));
  ("justification_bits", TBits (Exactly (Const "JUSTIFICATION_BITS_LENGTH")));
  ("previous_justified_checkpoint", j_phase0_Checkpoint);
  ("current_justified_checkpoint", j_phase0_Checkpoint);
  ("finalized_checkpoint", j_phase0_Checkpoint);
  ("inactivity_scores", TTextSeq (AtMost (Const "VALIDATOR_REGISTRY_LIMIT")) (2 ^ 64));
  ("current_sync_committee", j_altair_SyncCommittee);
  ("next_sync_committee", j_altair_SyncCommittee)].

(** ethereum-consensus/src/altair/light_client.rs:20-22 *)
Definition j_altair_LightClientHeader : Ty := TRec [
  ("beacon", j_phase0_BeaconBlockHeader)].

(** ethereum-consensus/src/altair/light_client.rs:25-29 *)
Definition j_altair_LightClientBootstrap : Ty := TRec [
  ("header", j_altair_LightClientHeader);
  ("current_sync_committee", j_altair_SyncCommittee);
  ("current_sync_committee_branch", TSeq (Exactly (Const "CURRENT_SYNC_COMMITTEE_INDEX_FLOOR_LOG_2")) (THex (Exactly (Lit 32))))].

(** ethereum-consensus/src/altair/light_client.rs:32-40 *)
Definition j_altair_LightClientUpdate : Ty := TRec [
  ("attested_header", j_altair_LightClientHeader);
  ("next_sync_committee", j_altair_SyncCommittee);
  ("next_sync_committee_branch", TSeq (Exactly (Const "NEXT_SYNC_COMMITTEE_INDEX_FLOOR_LOG_2")) (THex (Exactly (Lit 32))));
  ("finalized_header", j_altair_LightClientHeader);
  ("finality_branch", TSeq (Exactly (Const "FINALIZED_ROOT_INDEX_FLOOR_LOG_2")) (THex (Exactly (Lit 32))));
  ("sync_aggregate", j_altair_SyncAggregate);
  ("signature_slot", TNum (2 ^ 64))].

(** ethereum-consensus/src/altair/light_client.rs:43-49 *)
Definition j_altair_LightClientFinalityUpdate : Ty := TRec [
  ("attested_header", j_altair_LightClientHeader);
  ("finalized_header", j_altair_LightClientHeader);
  ("finality_branch", TSeq (Exactly (Const "FINALIZED_ROOT_INDEX_FLOOR_LOG_2")) (THex (Exactly (Lit 32))));
  ("sync_aggregate", j_altair_SyncAggregate);
  ("signature_slot", TNum (2 ^ 64))].

(** ethereum-consensus/src/altair/light_client.rs:52-56 *)
Definition j_altair_LightClientOptimisticUpdate : Ty := TRec [
  ("attested_header", j_altair_LightClientHeader);
  ("sync_aggregate", j_altair_SyncAggregate);
  ("signature_slot", TNum (2 ^ 64))].

(** ethereum-consensus/src/altair/networking.rs:7-12 *)
Definition j_altair_MetaData : Ty := TRec [
  ("seq_number", TText (2 ^ 64));
  ("attnets", TBits (Exactly (Const "ATTESTATION_SUBNET_COUNT")));
  ("syncnets", TBits (Exactly (Const "SYNC_COMMITTEE_SUBNET_COUNT")))].

(** ethereum-consensus/src/altair/validator.rs:7-14 *)
Definition j_altair_SyncCommitteeMessage : Ty := TRec [
  ("slot", TText (2 ^ 64));
  ("beacon_block_root", THex (Exactly (Lit 32)));
  ("validator_index", TText (2 ^ 64));
  ("signature", THex (Exactly (Lit 96)))].

(** ethereum-consensus/src/altair/validator.rs:17-25 *)
Definition j_altair_SyncCommitteeContribution : Ty := TRec [
  ("slot", TText (2 ^ 64));
  ("beacon_block_root", THex (Exactly (Lit 32)));
  ("subcommittee_index", TText (2 ^ 64));
  ("aggregation_bits", TBits (Exactly (Const "SYNC_SUBCOMMITTEE_SIZE")));
  ("signature", THex (Exactly (Lit 96)))].

(** ethereum-consensus/src/altair/validator.rs:28-33 *)
Definition j_altair_ContributionAndProof : Ty := TRec [
  ("aggregator_index", TText (2 ^ 64));
  ("contribution", j_altair_SyncCommitteeContribution);
  ("selection_proof", THex (Exactly (Lit 96)))].

(** ethereum-consensus/src/altair/validator.rs:36-39 *)
Definition j_altair_SignedContributionAndProof : Ty := TRec [
  ("message", j_altair_ContributionAndProof);
  ("signature", THex (Exactly (Lit 96)))].

(** ethereum-consensus/src/altair/validator.rs:42-45 *)
Definition j_altair_SyncAggregatorSelectionData : Ty := TRec [
  ("slot", TNum (2 ^ 64));
  ("subcommittee_index", TNum (2 ^ 64))].

(** ethereum-consensus/src/bellatrix/execution_payload.rs:13-38 *)
Definition j_bellatrix_ExecutionPayload : Ty := TRec [
  ("parent_hash", THex (Exactly (Lit 32)));
  ("fee_recipient", THex (Exactly (Lit 20)));
  ("state_root", THex (Exactly (Lit 32)));
  ("receipts_root", THex (Exactly (Lit 32)));
  ("logs_bloom", THex (Exactly (Const "BYTES_PER_LOGS_BLOOM")));
  ("prev_randao", THex (Exactly (Lit 32)));
  ("block_number", TText (2 ^ 64));
  ("gas_limit", TText (2 ^ 64));
  ("gas_used", TText (2 ^ 64));
  ("timestamp", TText (2 ^ 64));
  ("extra_data", THex (AtMost (Const "MAX_EXTRA_DATA_BYTES")));
  ("base_fee_per_gas", TText (2 ^ 256));
  ("block_hash", THex (Exactly (Lit 32)));
  ("transactions", TSeq (AtMost (Const "MAX_TRANSACTIONS_PER_PAYLOAD")) (THex (AtMost (Const "MAX_BYTES_PER_TRANSACTION"))))].

(** ethereum-consensus/src/bellatrix/beacon_block.rs:13-42 *)
Definition j_bellatrix_BeaconBlockBody : Ty := TRec [
  ("randao_reveal", THex (Exactly (Lit 96)));
  ("eth1_data", j_phase0_Eth1Data);
  ("graffiti", THex (Exactly (Lit 32)));
  ("proposer_slashings", TSeq (AtMost (Const "MAX_PROPOSER_SLASHINGS")) (j_phase0_ProposerSlashing));
  ("attester_slashings", TSeq (AtMost (Const "MAX_ATTESTER_SLASHINGS")) (j_phase0_AttesterSlashing));
  ("attestations", TSeq (AtMost (Const "MAX_ATTESTATIONS")) (j_phase0_Attestation));
  ("deposits", TSeq (AtMost (Const "MAX_DEPOSITS")) (j_phase0_Deposit));
  ("voluntary_exits", TSeq (AtMost (Const "MAX_VOLUNTARY_EXITS")) (j_phase0_SignedVoluntaryExit));
  ("sync_aggregate", j_altair_SyncAggregate);
  ("execution_payload", j_bellatrix_ExecutionPayload)].

(** ethereum-consensus/src/bellatrix/beacon_block.rs:47-79 *)
Definition j_bellatrix_BeaconBlock : Ty := TRec [
  ("slot", TText (2 ^ 64));
  ("proposer_index", TText (2 ^ 64));
  ("parent_root", THex (Exactly (Lit 32)));
  ("state_root", THex (Exactly (Lit 32)));
  ("body", j_bellatrix_BeaconBlockBody)].

(** ethereum-consensus/src/bellatrix/beacon_block.rs:84-111 *)
Definition j_bellatrix_SignedBeaconBlock : Ty := TRec [
  ("message", j_bellatrix_BeaconBlock);
  ("signature", THex (Exactly (Lit 96)))].

(** ethereum-consensus/src/bellatrix/execution_payload.rs:58-81 *)
Definition j_bellatrix_ExecutionPayloadHeader : Ty := TRec [
  ("parent_hash", THex (Exactly (Lit 32)));
  ("fee_recipient", THex (Exactly (Lit 20)));
  ("state_root", THex (Exactly (Lit 32)));
  ("receipts_root", THex (Exactly (Lit 32)));
  ("logs_bloom", THex (Exactly (Const "BYTES_PER_LOGS_BLOOM")));
  ("prev_randao", THex (Exactly (Lit 32)));
  ("block_number", TText (2 ^ 64));
  ("gas_limit", TText (2 ^ 64));
  ("gas_used", TText (2 ^ 64));
  ("timestamp", TText (2 ^ 64));
  ("extra_data", THex (AtMost (Const "MAX_EXTRA_DATA_BYTES")));
  ("base_fee_per_gas", TText (2 ^ 256));
  ("block_hash", THex (Exactly (Lit 32)));
  ("transactions_root", THex (Exactly (Lit 32)))].

(** ethereum-consensus/src/bellatrix/beacon_state.rs:13-59 *)
Definition j_bellatrix_BeaconState : Ty := TRec [
  ("genesis_time", TText (2 ^ 64));
  ("genesis_validators_root", THex (Exactly (Lit 32)));
  ("slot", TText (2 ^ 64));
  ("fork", j_phase0_Fork);
  ("latest_block_header", j_phase0_BeaconBlockHeader);
  ("block_roots", TSeq (Exactly (Const "SLOTS_PER_HISTORICAL_ROOT")) (THex (Exactly (Lit 32))));
  ("state_roots", TSeq (Exactly (Const "SLOTS_PER_HISTORICAL_ROOT")) (THex (Exactly (Lit 32))));
  ("historical_roots", TSeq (AtMost (Const "HISTORICAL_ROOTS_LIMIT")) (THex (Exactly (Lit 32))));
  ("eth1_data", j_phase0_Eth1Data);
  ("eth1_data_votes", TSeq (AtMost (Const "ETH1_DATA_VOTES_BOUND")) (j_phase0_Eth1Data));
  ("eth1_deposit_index", TText (2 ^ 64));
  ("validators", TSeq (AtMost (Const "VALIDATOR_REGISTRY_LIMIT")) (j_phase0_Validator));
  ("balances", TTextSeq (AtMost (Const "VALIDATOR_REGISTRY_LIMIT")) (2 ^ 64));
  ("randao_mixes", TSeq (Exactly (Const "EPOCHS_PER_HISTORICAL_VECTOR")) (THex (Exactly (Lit 32))));
  ("slashings", TTextSeq (Exactly (Const "EPOCHS_PER_SLASHINGS_VECTOR")) (2 ^ 64));
  ("previous_epoch_participation", TTextSeq (AtMost (Const "VALIDATOR_REGISTRY_LIMIT")) (256));
  ("current_epoch_participation", TTextSeq (AtMost (Const "VALIDATOR_REGISTRY_LIMIT")) (256));
  ("justification_bits", TBits (Exactly (Const "JUSTIFICATION_BITS_LENGTH")));
  ("previous_justified_checkpoint", j_phase0_Checkpoint);
  ("current_justified_checkpoint", j_phase0_Checkpoint);
  ("finalized_checkpoint", j_phase0_Checkpoint);
  ("inactivity_scores", TTextSeq (AtMost (Const "VALIDATOR_REGISTRY_LIMIT")) (2 ^ 64));
  ("current_sync_committee", j_altair_SyncCommittee);
  ("next_sync_committee", j_altair_SyncCommittee);
  ("latest_execution_payload_header", j_bellatrix_ExecutionPayloadHeader)].

(** ethereum-consensus/src/bellatrix/blinded_beacon_block.rs:13-36 *)
Definition j_bellatrix_BlindedBeaconBlockBody : Ty := TRec [
  ("randao_reveal", THex (Exactly (Lit 96)));
  ("eth1_data", j_phase0_Eth1Data);
  ("graffiti", THex (Exactly (Lit 32)));
  ("proposer_slashings", TSeq (AtMost (Const "MAX_PROPOSER_SLASHINGS")) (j_phase0_ProposerSlashing));
  ("attester_slashings", TSeq (AtMost (Const "MAX_ATTESTER_SLASHINGS")) (j_phase0_AttesterSlashing));
  ("attestations", TSeq (AtMost (Const "MAX_ATTESTATIONS")) (j_phase0_Attestation));
  ("deposits", TSeq (AtMost (Const "MAX_DEPOSITS")) (j_phase0_Deposit));
  ("voluntary_exits", TSeq (AtMost (Const "MAX_VOLUNTARY_EXITS")) (j_phase0_SignedVoluntaryExit));
  ("sync_aggregate", j_altair_SyncAggregate);
  ("execution_payload_header", j_bellatrix_ExecutionPayloadHeader)].

(** ethereum-consensus/src/bellatrix/blinded_beacon_block.rs:41-69 *)
Definition j_bellatrix_BlindedBeaconBlock : Ty := TRec [
  ("slot", TText (2 ^ 64));
  ("proposer_index", TText (2 ^ 64));
  ("parent_root", THex (Exactly (Lit 32)));
  ("state_root", THex (Exactly (Lit 32)));
  ("body", j_bellatrix_BlindedBeaconBlockBody)].

(** ethereum-consensus/src/bellatrix/blinded_beacon_block.rs:74-97 *)
Definition j_bellatrix_SignedBlindedBeaconBlock : Ty := TRec [
  ("message", j_bellatrix_BlindedBeaconBlock);
  ("signature", THex (Exactly (Lit 96)))].

(** ethereum-consensus/src/bellatrix/fork_choice.rs:4-9 *)
Definition j_bellatrix_PowBlock : Ty := TRec [
  ("block_hash", THex (Exactly (Lit 32)));
  ("parent_hash", THex (Exactly (Lit 32)));
  ("total_difficulty", TText (2 ^ 256))].

(** ethereum-consensus/src/builder/mod.rs:10-18 *)
Definition j_builder_ValidatorRegistration : Ty := TRec [
  ("fee_recipient", THex (Exactly (Lit 20)));
  ("gas_limit", TText (2 ^ 64));
  ("timestamp", TText (2 ^ 64));
  ("pubkey", THex (Exactly (Lit 48)))].

(** ethereum-consensus/src/builder/mod.rs:21-24 *)
Definition j_builder_SignedValidatorRegistration : Ty := TRec [
  ("message", j_builder_ValidatorRegistration);
  ("signature", THex (Exactly (Lit 96)))].

(** ethereum-consensus/src/capella/withdrawal.rs:9-17 *)
Definition j_capella_Withdrawal : Ty := TRec [
  ("index", TText (2 ^ 64));
  ("validator_index", TText (2 ^ 64));
  ("address", THex (Exactly (Lit 20)));
  ("amount", TText (2 ^ 64))].

(** ethereum-consensus/src/capella/execution_payload.rs:13-40 *)
Definition j_capella_ExecutionPayload : Ty := TRec [
  ("parent_hash", THex (Exactly (Lit 32)));
  ("fee_recipient", THex (Exactly (Lit 20)));
  ("state_root", THex (Exactly (Lit 32)));
  ("receipts_root", THex (Exactly (Lit 32)));
  ("logs_bloom", THex (Exactly (Const "BYTES_PER_LOGS_BLOOM")));
  ("prev_randao", THex (Exactly (Lit 32)));
  ("block_number", TText (2 ^ 64));
  ("gas_limit", TText (2 ^ 64));
  ("gas_used", TText (2 ^ 64));
  ("timestamp", TText (2 ^ 64));
  ("extra_data", THex (AtMost (Const "MAX_EXTRA_DATA_BYTES")));
  ("base_fee_per_gas", TText (2 ^ 256));
  ("block_hash", THex (Exactly (Lit 32)));
  ("transactions", TSeq (AtMost (Const "MAX_TRANSACTIONS_PER_PAYLOAD")) (THex (AtMost (Const "MAX_BYTES_PER_TRANSACTION"))));
  ("withdrawals", TSeq (AtMost (Const "MAX_WITHDRAWALS_PER_PAYLOAD")) (j_capella_Withdrawal))].

(** ethereum-consensus/src/capella/bls_to_execution_change.rs:9-15 *)
Definition j_capella_BlsToExecutionChange : Ty := TRec [
  ("validator_index", TText (2 ^ 64));
  ("from_bls_pubkey", THex (Exactly (Lit 48)));
  ("to_execution_address", THex (Exactly (Lit 20)))].

(** ethereum-consensus/src/capella/bls_to_execution_change.rs:20-23 *)
Definition j_capella_SignedBlsToExecutionChange : Ty := TRec [
  ("message", j_capella_BlsToExecutionChange);
  ("signature", THex (Exactly (Lit 96)))].

(** ethereum-consensus/src/capella/beacon_block.rs:14-47 *)
Definition j_capella_BeaconBlockBody : Ty := TRec [
  ("randao_reveal", THex (Exactly (Lit 96)));
  ("eth1_data", j_phase0_Eth1Data);
  ("graffiti", THex (Exactly (Lit 32)));
  ("proposer_slashings", TSeq (AtMost (Const "MAX_PROPOSER_SLASHINGS")) (j_phase0_ProposerSlashing));
  ("attester_slashings", TSeq (AtMost (Const "MAX_ATTESTER_SLASHINGS")) (j_phase0_AttesterSlashing));
  ("attestations", TSeq (AtMost (Const "MAX_ATTESTATIONS")) (j_phase0_Attestation));
  ("deposits", TSeq (AtMost (Const "MAX_DEPOSITS")) (j_phase0_Deposit));
  ("voluntary_exits", TSeq (AtMost (Const "MAX_VOLUNTARY_EXITS")) (j_phase0_SignedVoluntaryExit));
  ("sync_aggregate", j_altair_SyncAggregate);
  ("execution_payload", j_capella_ExecutionPayload);
  ("bls_to_execution_changes", TSeq (AtMost (Const "MAX_BLS_TO_EXECUTION_CHANGES")) (j_capella_SignedBlsToExecutionChange))].

(** ethereum-consensus/src/capella/beacon_block.rs:52-88 *)
Definition j_capella_BeaconBlock : Ty := TRec [
  ("slot", TText (2 ^ 64));
  ("proposer_index", TText (2 ^ 64));
  ("parent_root", THex (Exactly (Lit 32)));
  ("state_root", THex (Exactly (Lit 32)));
  ("body", j_capella_BeaconBlockBody)].

(** ethereum-consensus/src/capella/beacon_block.rs:93-124 *)
Definition j_capella_SignedBeaconBlock : Ty := TRec [
  ("message", j_capella_BeaconBlock);
  ("signature", THex (Exactly (Lit 96)))].

(** ethereum-consensus/src/capella/execution_payload.rs:62-86 *)
Definition j_capella_ExecutionPayloadHeader : Ty := TRec [
  ("parent_hash", THex (Exactly (Lit 32)));
  ("fee_recipient", THex (Exactly (Lit 20)));
  ("state_root", THex (Exactly (Lit 32)));
  ("receipts_root", THex (Exactly (Lit 32)));
  ("logs_bloom", THex (Exactly (Const "BYTES_PER_LOGS_BLOOM")));
  ("prev_randao", THex (Exactly (Lit 32)));
  ("block_number", TText (2 ^ 64));
  ("gas_limit", TText (2 ^ 64));
  ("gas_used", TText (2 ^ 64));
  ("timestamp", TText (2 ^ 64));
  ("extra_data", THex (AtMost (Const "MAX_EXTRA_DATA_BYTES")));
  ("base_fee_per_gas", TText (2 ^ 256));
  ("block_hash", THex (Exactly (Lit 32)));
  ("transactions_root", THex (Exactly (Lit 32)));
  ("withdrawals_root", THex (Exactly (Lit 32)))].

(** ethereum-consensus/src/phase0/beacon_state.rs:42-45 *)
Definition j_phase0_HistoricalSummary : Ty := TRec [
  ("block_summary_root", THex (Exactly (Lit 32)));
  ("state_summary_root", THex (Exactly (Lit 32)))].

(** ethereum-consensus/src/capella/beacon_state.rs:13-64 *)
Definition j_capella_BeaconState : Ty := TRec [
  ("genesis_time", TText (2 ^ 64));
  ("genesis_validators_root", THex (Exactly (Lit 32)));
  ("slot", TText (2 ^ 64));
  ("fork", j_phase0_Fork);
  ("latest_block_header", j_phase0_BeaconBlockHeader);
  ("block_roots", TSeq (Exactly (Const "SLOTS_PER_HISTORICAL_ROOT")) (THex (Exactly (Lit 32))));
  ("state_roots", TSeq (Exactly (Const "SLOTS_PER_HISTORICAL_ROOT")) (THex (Exactly (Lit 32))));
  ("historical_roots", TSeq (AtMost (Const "HISTORICAL_ROOTS_LIMIT")) (THex (Exactly (Lit 32))));
  ("eth1_data", j_phase0_Eth1Data);
  ("eth1_data_votes", TSeq (AtMost (Const "ETH1_DATA_VOTES_BOUND")) (j_phase0_Eth1Data));
  ("eth1_deposit_index", TText (2 ^ 64));
  ("validators", TSeq (AtMost (Const "VALIDATOR_REGISTRY_LIMIT")) (j_phase0_Validator));
  ("balances", TTextSeq (AtMost (Const "VALIDATOR_REGISTRY_LIMIT")) (2 ^ 64));
  ("randao_mixes", TSeq (Exactly (Const "EPOCHS_PER_HISTORICAL_VECTOR")) (THex (Exactly (Lit 32))));
  ("slashings", TTextSeq (Exactly (Const "EPOCHS_PER_SLASHINGS_VECTOR")) (2 ^ 64));
  ("previous_epoch_participation", TTextSeq (AtMost (Const "VALIDATOR_REGISTRY_LIMIT")) (256));
  ("current_epoch_participation", TTextSeq (AtMost (Const "VALIDATOR_REGISTRY_LIMIT")) (256));
  ("justification_bits", TBits (Exactly (Const "JUSTIFICATION_BITS_LENGTH")));
  ("previous_justified_checkpoint", j_phase0_Checkpoint);
  ("current_justified_checkpoint", j_phase0_Checkpoint);
  ("finalized_checkpoint", j_phase0_Checkpoint);
  ("inactivity_scores", TTextSeq (AtMost (Const "VALIDATOR_REGISTRY_LIMIT")) (2 ^ 64));
  ("current_sync_committee", j_altair_SyncCommittee);
  ("next_sync_committee", j_altair_SyncCommittee);
  ("latest_execution_payload_header", j_capella_ExecutionPayloadHeader);
  ("next_withdrawal_index", TText (2 ^ 64));
  ("next_withdrawal_validator_index", TText (2 ^ 64));
  ("historical_summaries", TSeq (AtMost (Const "HISTORICAL_ROOTS_LIMIT")) (j_phase0_HistoricalSummary))].

(** ethereum-consensus/src/capella/blinded_beacon_block.rs:14-39 *)
Definition j_capella_BlindedBeaconBlockBody : Ty := TRec [
  ("randao_reveal", THex (Exactly (Lit 96)));
  ("eth1_data", j_phase0_Eth1Data);
  ("graffiti", THex (Exactly (Lit 32)));
  ("proposer_slashings", TSeq (AtMost (Const "MAX_PROPOSER_SLASHINGS")) (j_phase0_ProposerSlashing));
  ("attester_slashings", TSeq (AtMost (Const "MAX_ATTESTER_SLASHINGS")) (j_phase0_AttesterSlashing));
  ("attestations", TSeq (AtMost (Const "MAX_ATTESTATIONS")) (j_phase0_Attestation));
  ("deposits", TSeq (AtMost (Const "MAX_DEPOSITS")) (j_phase0_Deposit));
  ("voluntary_exits", TSeq (AtMost (Const "MAX_VOLUNTARY_EXITS")) (j_phase0_SignedVoluntaryExit));
  ("sync_aggregate", j_altair_SyncAggregate);
  ("execution_payload_header", j_capella_ExecutionPayloadHeader);
  ("bls_to_execution_changes", TSeq (AtMost (Const "MAX_BLS_TO_EXECUTION_CHANGES")) (j_capella_SignedBlsToExecutionChange))].

(** ethereum-consensus/src/capella/blinded_beacon_block.rs:44-74 *)
Definition j_capella_BlindedBeaconBlock : Ty := TRec [
  ("slot", TText (2 ^ 64));
  ("proposer_index", TText (2 ^ 64));
  ("parent_root", THex (Exactly (Lit 32)));
  ("state_root", THex (Exactly (Lit 32)));
  ("body", j_capella_BlindedBeaconBlockBody)].

(** ethereum-consensus/src/capella/blinded_beacon_block.rs:79-104 *)
Definition j_capella_SignedBlindedBeaconBlock : Ty := TRec [
  ("message", j_capella_BlindedBeaconBlock);
  ("signature", THex (Exactly (Lit 96)))].

(** ethereum-consensus/src/capella/light_client.rs:17-21 *)
Definition j_capella_LightClientHeader : Ty := TRec [
  ("beacon", j_phase0_BeaconBlockHeader);
  ("execution", j_capella_ExecutionPayloadHeader);
  ("execution_branch", TSeq (Exactly (Const "EXECUTION_PAYLOAD_INDEX_FLOOR_LOG_2")) (THex (Exactly (Lit 32))))].

(** ethereum-consensus/src/capella/light_client.rs:24-32 *)
Definition j_capella_LightClientBootstrap : Ty := TRec [
  ("header", j_capella_LightClientHeader);
  ("current_sync_committee", j_altair_SyncCommittee);
  ("current_sync_committee_branch", TSeq (Exactly (Const "CURRENT_SYNC_COMMITTEE_INDEX_FLOOR_LOG_2")) (THex (Exactly (Lit 32))))].

(** ethereum-consensus/src/capella/light_client.rs:35-47 *)
Definition j_capella_LightClientUpdate : Ty := TRec [
  ("attested_header", j_capella_LightClientHeader);
  ("next_sync_committee", j_altair_SyncCommittee);
  ("next_sync_committee_branch", TSeq (Exactly (Const "NEXT_SYNC_COMMITTEE_INDEX_FLOOR_LOG_2")) (THex (Exactly (Lit 32))));
  ("finalized_header", j_capella_LightClientHeader);
  ("finality_branch", TSeq (Exactly (Const "FINALIZED_ROOT_INDEX_FLOOR_LOG_2")) (THex (Exactly (Lit 32))));
  ("sync_aggregate", j_altair_SyncAggregate);
  ("signature_slot", TNum (2 ^ 64))].

(** ethereum-consensus/src/capella/light_client.rs:50-60 *)
Definition j_capella_LightClientFinalityUpdate : Ty := TRec [
  ("attested_header", j_capella_LightClientHeader);
  ("finalized_header", j_capella_LightClientHeader);
  ("finality_branch", TSeq (Exactly (Const "FINALIZED_ROOT_INDEX_FLOOR_LOG_2")) (THex (Exactly (Lit 32))));
  ("sync_aggregate", j_altair_SyncAggregate);
  ("signature_slot", TNum (2 ^ 64))].

(** ethereum-consensus/src/capella/light_client.rs:63-71 *)
Definition j_capella_LightClientOptimisticUpdate : Ty := TRec [
  ("attested_header", j_capella_LightClientHeader);
  ("sync_aggregate", j_altair_SyncAggregate);
  ("signature_slot", TNum (2 ^ 64))].

(** ethereum-consensus/src/deneb/execution_payload.rs:12-43 *)
Definition j_deneb_ExecutionPayload : Ty := TRec [
  ("parent_hash", THex (Exactly (Lit 32)));
  ("fee_recipient", THex (Exactly (Lit 20)));
  ("state_root", THex (Exactly (Lit 32)));
  ("receipts_root", THex (Exactly (Lit 32)));
  ("logs_bloom", THex (Exactly (Const "BYTES_PER_LOGS_BLOOM")));
  ("prev_randao", THex (Exactly (Lit 32)));
  ("block_number", TText (2 ^ 64));
  ("gas_limit", TText (2 ^ 64));
  ("gas_used", TText (2 ^ 64));
  ("timestamp", TText (2 ^ 64));
  ("extra_data", THex (AtMost (Const "MAX_EXTRA_DATA_BYTES")));
  ("base_fee_per_gas", TText (2 ^ 256));
  ("block_hash", THex (Exactly (Lit 32)));
  ("transactions", TSeq (AtMost (Const "MAX_TRANSACTIONS_PER_PAYLOAD")) (THex (AtMost (Const "MAX_BYTES_PER_TRANSACTION"))));
  ("withdrawals", TSeq (AtMost (Const "MAX_WITHDRAWALS_PER_PAYLOAD")) (j_capella_Withdrawal));
  ("blob_gas_used", TText (2 ^ 64));
  ("excess_blob_gas", TText (2 ^ 64))].

(** ethereum-consensus/src/deneb/beacon_block.rs:16-51 *)
Definition j_deneb_BeaconBlockBody : Ty := TRec [
  ("randao_reveal", THex (Exactly (Lit 96)));
  ("eth1_data", j_phase0_Eth1Data);
  ("graffiti", THex (Exactly (Lit 32)));
  ("proposer_slashings", TSeq (AtMost (Const "MAX_PROPOSER_SLASHINGS")) (j_phase0_ProposerSlashing));
  ("attester_slashings", TSeq (AtMost (Const "MAX_ATTESTER_SLASHINGS")) (j_phase0_AttesterSlashing));
  ("attestations", TSeq (AtMost (Const "MAX_ATTESTATIONS")) (j_phase0_Attestation));
  ("deposits", TSeq (AtMost (Const "MAX_DEPOSITS")) (j_phase0_Deposit));
  ("voluntary_exits", TSeq (AtMost (Const "MAX_VOLUNTARY_EXITS")) (j_phase0_SignedVoluntaryExit));
  ("sync_aggregate", j_altair_SyncAggregate);
  ("execution_payload", j_deneb_ExecutionPayload);
  ("bls_to_execution_changes", TSeq (AtMost (Const "MAX_BLS_TO_EXECUTION_CHANGES")) (j_capella_SignedBlsToExecutionChange));
  ("blob_kzg_commitments", TSeq (AtMost (Const "MAX_BLOB_COMMITMENTS_PER_BLOCK")) (THex (Exactly (Lit 48))))].

(** ethereum-consensus/src/deneb/beacon_block.rs:56-94 *)
Definition j_deneb_BeaconBlock : Ty := TRec [
  ("slot", TText (2 ^ 64));
  ("proposer_index", TText (2 ^ 64));
  ("parent_root", THex (Exactly (Lit 32)));
  ("state_root", THex (Exactly (Lit 32)));
  ("body", j_deneb_BeaconBlockBody)].

(** ethereum-consensus/src/deneb/beacon_block.rs:99-132 *)
Definition j_deneb_SignedBeaconBlock : Ty := TRec [
  ("message", j_deneb_BeaconBlock);
  ("signature", THex (Exactly (Lit 96)))].

(** ethereum-consensus/src/deneb/execution_payload.rs:48-76 *)
Definition j_deneb_ExecutionPayloadHeader : Ty := TRec [
  ("parent_hash", THex (Exactly (Lit 32)));
  ("fee_recipient", THex (Exactly (Lit 20)));
  ("state_root", THex (Exactly (Lit 32)));
  ("receipts_root", THex (Exactly (Lit 32)));
  ("logs_bloom", THex (Exactly (Const "BYTES_PER_LOGS_BLOOM")));
  ("prev_randao", THex (Exactly (Lit 32)));
  ("block_number", TText (2 ^ 64));
  ("gas_limit", TText (2 ^ 64));
  ("gas_used", TText (2 ^ 64));
  ("timestamp", TText (2 ^ 64));
  ("extra_data", THex (AtMost (Const "MAX_EXTRA_DATA_BYTES")));
  ("base_fee_per_gas", TText (2 ^ 256));
  ("block_hash", THex (Exactly (Lit 32)));
  ("transactions_root", THex (Exactly (Lit 32)));
  ("withdrawals_root", THex (Exactly (Lit 32)));
  ("blob_gas_used", TText (2 ^ 64));
  ("excess_blob_gas", TText (2 ^ 64))].

(** ethereum-consensus/src/deneb/beacon_state.rs:13-64 *)
Definition j_deneb_BeaconState : Ty := TRec [
  ("genesis_time", TText (2 ^ 64));
  ("genesis_validators_root", THex (Exactly (Lit 32)));
  ("slot", TText (2 ^ 64));
  ("fork", j_phase0_Fork);
  ("latest_block_header", j_phase0_BeaconBlockHeader);
  ("block_roots", TSeq (Exactly (Const "SLOTS_PER_HISTORICAL_ROOT")) (THex (Exactly (Lit 32))));
  ("state_roots", TSeq (Exactly (Const "SLOTS_PER_HISTORICAL_ROOT")) (THex (Exactly (Lit 32))));
  ("historical_roots", TSeq (AtMost (Const "HISTORICAL_ROOTS_LIMIT")) (THex (Exactly (Lit 32))));
  ("eth1_data", j_phase0_Eth1Data);
  ("eth1_data_votes", TSeq (AtMost (Const "ETH1_DATA_VOTES_BOUND")) (j_phase0_Eth1Data));
  ("eth1_deposit_index", TText (2 ^ 64));
  ("validators", TSeq (AtMost (Const "VALIDATOR_REGISTRY_LIMIT")) (j_phase0_Validator));
  ("balances", TTextSeq (AtMost (Const "VALIDATOR_REGISTRY_LIMIT")) (2 ^ 64));
  ("randao_mixes", TSeq (Exactly (Const "EPOCHS_PER_HISTORICAL_VECTOR")) (THex (Exactly (Lit 32))));
  ("slashings", TTextSeq (Exactly (Const "EPOCHS_PER_SLASHINGS_VECTOR")) (2 ^ 64));
  ("previous_epoch_participation", TTextSeq (AtMost (Const "VALIDATOR_REGISTRY_LIMIT")) (256));
  ("current_epoch_participation", TTextSeq (AtMost (Const "VALIDATOR_REGISTRY_LIMIT")) (256));
  ("justification_bits", TBits (Exactly (Const "JUSTIFICATION_BITS_LENGTH")));
  ("previous_justified_checkpoint", j_phase0_Checkpoint);
  ("current_justified_checkpoint", j_phase0_Checkpoint);
  ("finalized_checkpoint", j_phase0_Checkpoint);
  ("inactivity_scores", TTextSeq (AtMost (Const "VALIDATOR_REGISTRY_LIMIT")) (2 ^ 64));
  ("current_sync_committee", j_altair_SyncCommittee);
  ("next_sync_committee", j_altair_SyncCommittee);
  ("latest_execution_payload_header", j_deneb_ExecutionPayloadHeader);
  ("next_withdrawal_index", TText (2 ^ 64));
  ("next_withdrawal_validator_index", TText (2 ^ 64));
  ("historical_summaries", TSeq (AtMost (Const "HISTORICAL_ROOTS_LIMIT")) (j_phase0_HistoricalSummary))].

(** ethereum-consensus/src/deneb/blinded_beacon_block.rs:16-43 *)
Definition j_deneb_BlindedBeaconBlockBody : Ty := TRec [
  ("randao_reveal", THex (Exactly (Lit 96)));
  ("eth1_data", j_phase0_Eth1Data);
  ("graffiti", THex (Exactly (Lit 32)));
  ("proposer_slashings", TSeq (AtMost (Const "MAX_PROPOSER_SLASHINGS")) (j_phase0_ProposerSlashing));
  ("attester_slashings", TSeq (AtMost (Const "MAX_ATTESTER_SLASHINGS")) (j_phase0_AttesterSlashing));
  ("attestations", TSeq (AtMost (Const "MAX_ATTESTATIONS")) (j_phase0_Attestation));
  ("deposits", TSeq (AtMost (Const "MAX_DEPOSITS")) (j_phase0_Deposit));
  ("voluntary_exits", TSeq (AtMost (Const "MAX_VOLUNTARY_EXITS")) (j_phase0_SignedVoluntaryExit));
  ("sync_aggregate", j_altair_SyncAggregate);
  ("execution_payload_header", j_deneb_ExecutionPayloadHeader);
  ("bls_to_execution_changes", TSeq (AtMost (Const "MAX_BLS_TO_EXECUTION_CHANGES")) (j_capella_SignedBlsToExecutionChange));
  ("blob_kzg_commitments", TSeq (AtMost (Const "MAX_BLOB_COMMITMENTS_PER_BLOCK")) (THex (Exactly (Lit 48))))].

(** ethereum-consensus/src/deneb/blinded_beacon_block.rs:48-80 *)
Definition j_deneb_BlindedBeaconBlock : Ty := TRec [
  ("slot", TText (2 ^ 64));
  ("proposer_index", TText (2 ^ 64));
  ("parent_root", THex (Exactly (Lit 32)));
  ("state_root", THex (Exactly (Lit 32)));
  ("body", j_deneb_BlindedBeaconBlockBody)].

(** ethereum-consensus/src/deneb/blinded_beacon_block.rs:85-112 *)
Definition j_deneb_SignedBlindedBeaconBlock : Ty := TRec [
  ("message", j_deneb_BlindedBeaconBlock);
  ("signature", THex (Exactly (Lit 96)))].

(** ethereum-consensus/src/deneb/blob_sidecar.rs:18-22 *)
Definition j_deneb_BlobIdentifier : Ty := TRec [
  ("block_root", THex (Exactly (Lit 32)));
  ("index", TText (2 ^ 64))].

(** ethereum-consensus/src/deneb/blob_sidecar.rs:25-29 *)
Definition j_deneb_BlobsBundle : Ty := TRec [
  ("commitments", TSeq (AnyLen) (THex (Exactly (Lit 48))));
  ("proofs", TSeq (AnyLen) (THex (Exactly (Lit 48))));
  ("blobs", TSeq (AnyLen) (THex (Exactly (Const "BYTES_PER_BLOB"))))].

(** ethereum-consensus/src/deneb/blob_sidecar.rs:34-45 *)
Definition j_deneb_BlobSidecar : Ty := TRec [
  ("index", TText (2 ^ 64));
  ("blob", THex (Exactly (Const "BYTES_PER_BLOB")));
  ("kzg_commitment", THex (Exactly (Lit 48)));
  ("kzg_proof", THex (Exactly (Lit 48)));
  ("signed_block_header", j_phase0_SignedBeaconBlockHeader);
  ("kzg_commitment_inclusion_proof", TSeq (Exactly (Const "KZG_COMMITMENT_INCLUSION_PROOF_DEPTH")) (THex (Exactly (Lit 32))))].

(** ethereum-consensus/src/deneb/light_client.rs:15-19 *)
Definition j_deneb_LightClientHeader : Ty := TRec [
  ("beacon", j_phase0_BeaconBlockHeader);
  ("execution", j_deneb_ExecutionPayloadHeader);
  ("execution_branch", TSeq (Exactly (Const "EXECUTION_PAYLOAD_INDEX_FLOOR_LOG_2")) (THex (Exactly (Lit 32))))].

(** ethereum-consensus/src/deneb/light_client.rs:22-30 *)
Definition j_deneb_LightClientBootstrap : Ty := TRec [
  ("header", j_deneb_LightClientHeader);
  ("current_sync_committee", j_altair_SyncCommittee);
  ("current_sync_committee_branch", TSeq (Exactly (Const "CURRENT_SYNC_COMMITTEE_INDEX_FLOOR_LOG_2")) (THex (Exactly (Lit 32))))].

(** ethereum-consensus/src/deneb/light_client.rs:33-45 *)
Definition j_deneb_LightClientUpdate : Ty := TRec [
  ("attested_header", j_deneb_LightClientHeader);
  ("next_sync_committee", j_altair_SyncCommittee);
  ("next_sync_committee_branch", TSeq (Exactly (Const "NEXT_SYNC_COMMITTEE_INDEX_FLOOR_LOG_2")) (THex (Exactly (Lit 32))));
  ("finalized_header", j_deneb_LightClientHeader);
  ("finality_branch", TSeq (Exactly (Const "FINALIZED_ROOT_INDEX_FLOOR_LOG_2")) (THex (Exactly (Lit 32))));
  ("sync_aggregate", j_altair_SyncAggregate);
  ("signature_slot", TNum (2 ^ 64))].

(** ethereum-consensus/src/deneb/light_client.rs:48-58 *)
Definition j_deneb_LightClientFinalityUpdate : Ty := TRec [
  ("attested_header", j_deneb_LightClientHeader);
  ("finalized_header", j_deneb_LightClientHeader);
  ("finality_branch", TSeq (Exactly (Const "FINALIZED_ROOT_INDEX_FLOOR_LOG_2")) (THex (Exactly (Lit 32))));
  ("sync_aggregate", j_altair_SyncAggregate);
  ("signature_slot", TNum (2 ^ 64))].

(** ethereum-consensus/src/deneb/light_client.rs:61-69 *)
Definition j_deneb_LightClientOptimisticUpdate : Ty := TRec [
  ("attested_header", j_deneb_LightClientHeader);
  ("sync_aggregate", j_altair_SyncAggregate);
  ("signature_slot", TNum (2 ^ 64))].

(** ethereum-consensus/src/electra/operations.rs:18-23 *)
Definition j_electra_IndexedAttestation : Ty := TRec [
  ("attesting_indices", TTextSeq (AtMost (Const "MAX_VALIDATORS_PER_SLOT")) (2 ^ 64));
  ("data", j_phase0_AttestationData);
  ("signature", THex (Exactly (Lit 96)))].

(** ethereum-consensus/src/electra/operations.rs:10-13 *)
Definition j_electra_AttesterSlashing : Ty := TRec [
  ("attestation_1", j_electra_IndexedAttestation);
  ("attestation_2", j_electra_IndexedAttestation)].

(** ethereum-consensus/src/electra/operations.rs:28-33 *)
Definition j_electra_Attestation : Ty := TRec [
  ("aggregation_bits", TBits (AtMost (Const "MAX_VALIDATORS_PER_SLOT")));
  ("data", j_phase0_AttestationData);
  ("committee_bits", TBits (Exactly (Const "MAX_COMMITTEES_PER_SLOT")));
  ("signature", THex (Exactly (Lit 96)))].

(** ethereum-consensus/src/electra/beacon_state.rs:16-25 *)
Definition j_electra_DepositReceipt : Ty := TRec [
  ("pubkey", THex (Exactly (Lit 48)));
  ("withdrawal_credentials", THex (Exactly (Lit 32)));
  ("amount", TText (2 ^ 64));
  ("signature", THex (Exactly (Lit 96)));
  ("index", TText (2 ^ 64))].

(** ethereum-consensus/src/electra/beacon_state.rs:62-68 *)
Definition j_electra_ExecutionLayerWithdrawalRequest : Ty := TRec [
  ("source_address", THex (Exactly (Lit 20)));
  ("pubkey", THex (Exactly (Lit 48)));
  ("amount", TText (2 ^ 64))].

(** ethereum-consensus/src/electra/execution_payload.rs:13-49 *)
Definition j_electra_ExecutionPayload : Ty := TRec [
  ("parent_hash", THex (Exactly (Lit 32)));
  ("fee_recipient", THex (Exactly (Lit 20)));
  ("state_root", THex (Exactly (Lit 32)));
  ("receipts_root", THex (Exactly (Lit 32)));
  ("logs_bloom", THex (Exactly (Const "BYTES_PER_LOGS_BLOOM")));
  ("prev_randao", THex (Exactly (Lit 32)));
  ("block_number", TText (2 ^ 64));
  ("gas_limit", TText (2 ^ 64));
  ("gas_used", TText (2 ^ 64));
  ("timestamp", TText (2 ^ 64));
  ("extra_data", THex (AtMost (Const "MAX_EXTRA_DATA_BYTES")));
  ("base_fee_per_gas", TText (2 ^ 256));
  ("block_hash", THex (Exactly (Lit 32)));
  ("transactions", TSeq (AtMost (Const "MAX_TRANSACTIONS_PER_PAYLOAD")) (THex (AtMost (Const "MAX_BYTES_PER_TRANSACTION"))));
  ("withdrawals", TSeq (AtMost (Const "MAX_WITHDRAWALS_PER_PAYLOAD")) (j_capella_Withdrawal));
  ("blob_gas_used", TText (2 ^ 64));
  ("excess_blob_gas", TText (2 ^ 64));
  ("deposit_receipts", TSeq (AtMost (Const "MAX_DEPOSIT_RECEIPTS_PER_PAYLOAD")) (j_electra_DepositReceipt));
  ("withdrawal_requests", TSeq (AtMost (Const "MAX_WITHDRAWAL_REQUESTS_PER_PAYLOAD")) (j_electra_ExecutionLayerWithdrawalRequest))].

(** ethereum-consensus/src/electra/operations.rs:38-45 *)
Definition j_electra_Consolidation : Ty := TRec [
  ("source_index", TText (2 ^ 64));
  ("target_index", TText (2 ^ 64));
  ("epoch", TText (2 ^ 64))].

(** ethereum-consensus/src/electra/operations.rs:50-53 *)
Definition j_electra_SignedConsolidation : Ty := TRec [
  ("message", j_electra_Consolidation);
  ("signature", THex (Exactly (Lit 96)))].

(** ethereum-consensus/src/electra/beacon_block.rs:17-59 *)
Definition j_electra_BeaconBlockBody : Ty := TRec [
  ("randao_reveal", THex (Exactly (Lit 96)));
  ("eth1_data", j_phase0_Eth1Data);
  ("graffiti", THex (Exactly (Lit 32)));
  ("proposer_slashings", TSeq (AtMost (Const "MAX_PROPOSER_SLASHINGS")) (j_phase0_ProposerSlashing));
  ("attester_slashings", TSeq (AtMost (Const "MAX_ATTESTER_SLASHINGS")) (j_electra_AttesterSlashing));
  ("attestations", TSeq (AtMost (Const "MAX_ATTESTATIONS")) (j_electra_Attestation));
  ("deposits", TSeq (AtMost (Const "MAX_DEPOSITS")) (j_phase0_Deposit));
  ("voluntary_exits", TSeq (AtMost (Const "MAX_VOLUNTARY_EXITS")) (j_phase0_SignedVoluntaryExit));
  ("sync_aggregate", j_altair_SyncAggregate);
  ("execution_payload", j_electra_ExecutionPayload);
  ("bls_to_execution_changes", TSeq (AtMost (Const "MAX_BLS_TO_EXECUTION_CHANGES")) (j_capella_SignedBlsToExecutionChange));
  ("blob_kzg_commitments", TSeq (AtMost (Const "MAX_BLOB_COMMITMENTS_PER_BLOCK")) (THex (Exactly (Lit 48))));
  ("consolidations", TSeq (AtMost (Const "MAX_CONSOLIDATIONS")) (j_electra_SignedConsolidation))].

(** ethereum-consensus/src/electra/beacon_block.rs:64-110 *)
Definition j_electra_BeaconBlock : Ty := TRec [
  ("slot", TText (2 ^ 64));
  ("proposer_index", TText (2 ^ 64));
  ("parent_root", THex (Exactly (Lit 32)));
  ("state_root", THex (Exactly (Lit 32)));
  ("body", j_electra_BeaconBlockBody)].

(** ethereum-consensus/src/electra/beacon_block.rs:115-156 *)
Definition j_electra_SignedBeaconBlock : Ty := TRec [
  ("message", j_electra_BeaconBlock);
  ("signature", THex (Exactly (Lit 96)))].

(** ethereum-consensus/src/electra/beacon_state.rs:30-35 *)
Definition j_electra_PendingBalanceDeposit : Ty := TRec [
  ("index", TText (2 ^ 64));
  ("amount", TText (2 ^ 64))].

(** ethereum-consensus/src/electra/beacon_state.rs:40-47 *)
Definition j_electra_PendingPartialWithdrawal : Ty := TRec [
  ("index", TText (2 ^ 64));
  ("amount", TText (2 ^ 64));
  ("withdrawable_epoch", TText (2 ^ 64))].

(** ethereum-consensus/src/electra/beacon_state.rs:52-57 *)
Definition j_electra_PendingConsolidation : Ty := TRec [
  ("source_index", TText (2 ^ 64));
  ("target_index", TText (2 ^ 64))].

(** ethereum-consensus/src/electra/execution_payload.rs:54-84 *)
Definition j_electra_ExecutionPayloadHeader : Ty := TRec [
  ("parent_hash", THex (Exactly (Lit 32)));
  ("fee_recipient", THex (Exactly (Lit 20)));
  ("state_root", THex (Exactly (Lit 32)));
  ("receipts_root", THex (Exactly (Lit 32)));
  ("logs_bloom", THex (Exactly (Const "BYTES_PER_LOGS_BLOOM")));
  ("prev_randao", THex (Exactly (Lit 32)));
  ("block_number", TText (2 ^ 64));
  ("gas_limit", TText (2 ^ 64));
  ("gas_used", TText (2 ^ 64));
  ("timestamp", TText (2 ^ 64));
  ("extra_data", THex (AtMost (Const "MAX_EXTRA_DATA_BYTES")));
  ("base_fee_per_gas", TText (2 ^ 256));
  ("block_hash", THex (Exactly (Lit 32)));
  ("transactions_root", THex (Exactly (Lit 32)));
  ("withdrawals_root", THex (Exactly (Lit 32)));
  ("blob_gas_used", TText (2 ^ 64));
  ("excess_blob_gas", TText (2 ^ 64));
  ("deposit_receipts_root", THex (Exactly (Lit 32)));
  ("withdrawal_requests_root", THex (Exactly (Lit 32)))].

(** ethereum-consensus/src/electra/beacon_state.rs:73-143 *)
Definition j_electra_BeaconState : Ty := TRec [
  ("genesis_time", TText (2 ^ 64));
  ("genesis_validators_root", THex (Exactly (Lit 32)));
  ("slot", TText (2 ^ 64));
  ("fork", j_phase0_Fork);
  ("latest_block_header", j_phase0_BeaconBlockHeader);
  ("block_roots", TSeq (Exactly (Const "SLOTS_PER_HISTORICAL_ROOT")) (THex (Exactly (Lit 32))));
  ("state_roots", TSeq (Exactly (Const "SLOTS_PER_HISTORICAL_ROOT")) (THex (Exactly (Lit 32))));
  ("historical_roots", TSeq (AtMost (Const "HISTORICAL_ROOTS_LIMIT")) (THex (Exactly (Lit 32))));
  ("eth1_data", j_phase0_Eth1Data);
  ("eth1_data_votes", TSeq (AtMost (Const "ETH1_DATA_VOTES_BOUND")) (j_phase0_Eth1Data));
  ("eth1_deposit_index", TText (2 ^ 64));
  ("validators", TSeq (AtMost (Const "VALIDATOR_REGISTRY_LIMIT")) (j_phase0_Validator));
  ("balances", TTextSeq (AtMost (Const "VALIDATOR_REGISTRY_LIMIT")) (2 ^ 64));
  ("randao_mixes", TSeq (Exactly (Const "EPOCHS_PER_HISTORICAL_VECTOR")) (THex (Exactly (Lit 32))));
  ("slashings", TTextSeq (Exactly (Const "EPOCHS_PER_SLASHINGS_VECTOR")) (2 ^ 64));
  ("previous_epoch_participation", TTextSeq (AtMost (Const "VALIDATOR_REGISTRY_LIMIT")) (256));
  ("current_epoch_participation", TTextSeq (AtMost (Const "VALIDATOR_REGISTRY_LIMIT")) (256));
  ("justification_bits", TBits (Exactly (Const "JUSTIFICATION_BITS_LENGTH")));
  ("previous_justified_checkpoint", j_phase0_Checkpoint);
  ("current_justified_checkpoint", j_phase0_Checkpoint);
  ("finalized_checkpoint", j_phase0_Checkpoint);
  ("inactivity_scores", TTextSeq (AtMost (Const "VALIDATOR_REGISTRY_LIMIT")) (2 ^ 64));
  ("current_sync_committee", j_altair_SyncCommittee);
  ("next_sync_committee", j_altair_SyncCommittee);
  ("latest_execution_payload_header", j_electra_ExecutionPayloadHeader);
  ("next_withdrawal_index", TText (2 ^ 64));
  ("next_withdrawal_validator_index", TText (2 ^ 64));
  ("historical_summaries", TSeq (AtMost (Const "HISTORICAL_ROOTS_LIMIT")) (j_phase0_HistoricalSummary));
  ("deposit_receipts_start_index", TText (2 ^ 64));
  ("deposit_balance_to_consume", TText (2 ^ 64));
  ("exit_balance_to_consume", TText (2 ^ 64));
  ("earliest_exit_epoch", TText (2 ^ 64));
  ("consolidation_balance_to_consume", TText (2 ^ 64));
  ("earliest_consolidation_epoch", TText (2 ^ 64));
  ("pending_balance_deposits", TSeq (AtMost (Const "PENDING_BALANCE_DEPOSITS_LIMIT")) (j_electra_PendingBalanceDeposit));
  ("pending_partial_withdrawals", TSeq (AtMost (Const "PENDING_PARTIAL_WITHDRAWALS_LIMIT")) (j_electra_PendingPartialWithdrawal));
  ("pending_consolidations", TSeq (AtMost (Const "PENDING_CONSOLIDATIONS_LIMIT")) (j_electra_PendingConsolidation))].

(** ethereum-consensus/src/phase0/beacon_block.rs:12-29 *)
Definition j_phase0_BeaconBlockBody : Ty := TRec [
  ("randao_reveal", THex (Exactly (Lit 96)));
  ("eth1_data", j_phase0_Eth1Data);
  ("graffiti", THex (Exactly (Lit 32)));
  ("proposer_slashings", TSeq (AtMost (Const "MAX_PROPOSER_SLASHINGS")) (j_phase0_ProposerSlashing));
  ("attester_slashings", TSeq (AtMost (Const "MAX_ATTESTER_SLASHINGS")) (j_phase0_AttesterSlashing));
  ("attestations", TSeq (AtMost (Const "MAX_ATTESTATIONS")) (j_phase0_Attestation));
  ("deposits", TSeq (AtMost (Const "MAX_DEPOSITS")) (j_phase0_Deposit));
  ("voluntary_exits", TSeq (AtMost (Const "MAX_VOLUNTARY_EXITS")) (j_phase0_SignedVoluntaryExit))].

(** ethereum-consensus/src/phase0/beacon_block.rs:34-56 *)
Definition j_phase0_BeaconBlock : Ty := TRec [
  ("slot", TText (2 ^ 64));
  ("proposer_index", TText (2 ^ 64));
  ("parent_root", THex (Exactly (Lit 32)));
  ("state_root", THex (Exactly (Lit 32)));
  ("body", j_phase0_BeaconBlockBody)].

(** ethereum-consensus/src/phase0/beacon_block.rs:61-78 *)
Definition j_phase0_SignedBeaconBlock : Ty := TRec [
  ("message", j_phase0_BeaconBlock);
  ("signature", THex (Exactly (Lit 96)))].

(** ethereum-consensus/src/phase0/beacon_state.rs:25-29 *)
Definition j_phase0_ForkData : Ty := TRec [
  ("current_version", THex (Exactly (Lit 4)));
  ("genesis_validators_root", THex (Exactly (Lit 32)))].

(** ethereum-consensus/src/phase0/beacon_state.rs:32-35 *)
Definition j_phase0_HistoricalBatch : Ty := TRec [
  ("block_roots", TSeq (Exactly (Const "SLOTS_PER_HISTORICAL_ROOT")) (THex (Exactly (Lit 32))));
  ("state_roots", TSeq (Exactly (Const "SLOTS_PER_HISTORICAL_ROOT")) (THex (Exactly (Lit 32))))].

(** ethereum-consensus/src/phase0/operations.rs:45-52 *)
Definition j_phase0_PendingAttestation : Ty := TRec [
  ("aggregation_bits", TBits (AtMost (Const "MAX_VALIDATORS_PER_COMMITTEE")));
  ("data", j_phase0_AttestationData);
  ("inclusion_delay", TText (2 ^ 64));
  ("proposer_index", TText (2 ^ 64))].

(** ethereum-consensus/src/phase0/beacon_state.rs:50-88 *)
Definition j_phase0_BeaconState : Ty := TRec [
  ("genesis_time", TText (2 ^ 64));
  ("genesis_validators_root", THex (Exactly (Lit 32)));
  ("slot", TText (2 ^ 64));
  ("fork", j_phase0_Fork);
  ("latest_block_header", j_phase0_BeaconBlockHeader);
  ("block_roots", TSeq (Exactly (Const "SLOTS_PER_HISTORICAL_ROOT")) (THex (Exactly (Lit 32))));
  ("state_roots", TSeq (Exactly (Const "SLOTS_PER_HISTORICAL_ROOT")) (THex (Exactly (Lit 32))));
  ("historical_roots", TSeq (AtMost (Const "HISTORICAL_ROOTS_LIMIT")) (THex (Exactly (Lit 32))));
  ("eth1_data", j_phase0_Eth1Data);
  ("eth1_data_votes", TSeq (AtMost (Const "ETH1_DATA_VOTES_BOUND")) (j_phase0_Eth1Data));
  ("eth1_deposit_index", TText (2 ^ 64));
  ("validators", TSeq (AtMost (Const "VALIDATOR_REGISTRY_LIMIT")) (j_phase0_Validator));
  ("balances", TTextSeq (AtMost (Const "VALIDATOR_REGISTRY_LIMIT")) (2 ^ 64));
  ("randao_mixes", TSeq (Exactly (Const "EPOCHS_PER_HISTORICAL_VECTOR")) (THex (Exactly (Lit 32))));
  ("slashings", TTextSeq (Exactly (Const "EPOCHS_PER_SLASHINGS_VECTOR")) (2 ^ 64));
  ("previous_epoch_attestations", TSeq (AtMost (Const "PENDING_ATTESTATIONS_BOUND")) (j_phase0_PendingAttestation));
  ("current_epoch_attestations", TSeq (AtMost (Const "PENDING_ATTESTATIONS_BOUND")) (j_phase0_PendingAttestation));
  ("justification_bits", TBits (Exactly (Const "JUSTIFICATION_BITS_LENGTH")));
  ("previous_justified_checkpoint", j_phase0_Checkpoint);
  ("current_justified_checkpoint", j_phase0_Checkpoint);
  ("finalized_checkpoint", j_phase0_Checkpoint)].

(** ethereum-consensus/src/phase0/networking.rs:15-19 *)
Definition j_phase0_MetaData : Ty := TRec [
  ("seq_number", TText (2 ^ 64));
  ("attnets", TBits (Exactly (Const "ATTESTATION_SUBNET_COUNT")))].

(** ethereum-consensus/src/phase0/operations.rs:74-80 *)
Definition j_phase0_DepositMessage : Ty := TRec [
  ("pubkey", THex (Exactly (Lit 48)));
  ("withdrawal_credentials", THex (Exactly (Lit 32)));
  ("amount", TText (2 ^ 64))].

(** ethereum-consensus/src/phase0/validator.rs:29-33 *)
Definition j_phase0_Eth1Block : Ty := TRec [
  ("timestamp", TNum (2 ^ 64));
  ("deposit_root", THex (Exactly (Lit 32)));
  ("deposit_count", TNum (2 ^ 64))].

(** ethereum-consensus/src/phase0/validator.rs:36-41 *)
Definition j_phase0_AggregateAndProof : Ty := TRec [
  ("aggregator_index", TText (2 ^ 64));
  ("aggregate", j_phase0_Attestation);
  ("selection_proof", THex (Exactly (Lit 96)))].

(** ethereum-consensus/src/phase0/validator.rs:44-47 *)
Definition j_phase0_SignedAggregateAndProof : Ty := TRec [
  ("message", j_phase0_AggregateAndProof);
  ("signature", THex (Exactly (Lit 96)))].

(** ethereum-consensus/src/primitives.rs:37-41 *)
Definition j_primitives_Coordinate : Ty := TRec [
  ("slot", TText (2 ^ 64));
  ("root", THex (Exactly (Lit 32)))].

(** beacon-api-client/src/types.rs:32-36 *)
Definition j_api_types_DepositContract : Ty := TRec [
  ("chain_id", TText (2 ^ 64));
  ("address", THex (Exactly (Lit 20)))].

(** beacon-api-client/src/types.rs:39-47 *)
Definition j_api_types_DepositSnapshot : Ty := TRec [
  ("finalized", TSeq (AnyLen) (THex (Exactly (Lit 32))));
  ("deposit_root", THex (Exactly (Lit 32)));
  ("deposit_count", TText (2 ^ 64));
  ("execution_block_hash", THex (Exactly (Lit 32)));
  ("execution_block_height", TText (2 ^ 64))].

(** beacon-api-client/src/types.rs:50-56 *)
Definition j_api_types_GenesisDetails : Ty := TRec [
  ("genesis_time", TText (2 ^ 64));
  ("genesis_validators_root", THex (Exactly (Lit 32)));
  ("genesis_fork_version", THex (Exactly (Lit 4)))].

(** beacon-api-client/src/types.rs:109-111 *)
Definition j_api_types_RootData : Ty := TRec [
  ("root", THex (Exactly (Lit 32)))].

(** beacon-api-client/src/types.rs:142-146 *)
Definition j_api_types_FinalityCheckpoints : Ty := TRec [
  ("previous_justified", j_phase0_Checkpoint);
  ("current_justified", j_phase0_Checkpoint);
  ("finalized", j_phase0_Checkpoint)].

(** beacon-api-client/src/types.rs:225-230 *)
Definition j_api_types_BalanceSummary : Ty := TRec [
  ("index", TText (2 ^ 64));
  ("balance", TText (2 ^ 64))].

(** beacon-api-client/src/types.rs:259-263 *)
Definition j_api_types_BeaconHeaderSummary : Ty := TRec [
  ("root", THex (Exactly (Lit 32)));
  ("canonical", TBool);
  ("header", j_phase0_SignedBeaconBlockHeader)].

(** beacon-api-client/src/types.rs:388-397 *)
Definition j_api_types_PeerSummary : Ty := TRec [
  ("disconnected", TText (2 ^ 64));
  ("connecting", TText (2 ^ 64));
  ("connected", TText (2 ^ 64));
  ("disconnecting", TText (2 ^ 64))].

(** beacon-api-client/src/types.rs:400-406 *)
Definition j_api_types_SyncStatus : Ty := TRec [
  ("head_slot", TText (2 ^ 64));
  ("sync_distance", TText (2 ^ 64));
  ("is_syncing", TBool)].

(** beacon-api-client/src/types.rs:417-432 *)
Definition j_api_types_AttestationDuty : Ty := TRec [
  ("pubkey", THex (Exactly (Lit 48)));
  ("validator_index", TText (2 ^ 64));
  ("committee_index", TText (2 ^ 64));
  ("committee_length", TText (2 ^ 64));
  ("committees_at_slot", TText (2 ^ 64));
  ("validator_committee_index", TText (2 ^ 64));
  ("slot", TText (2 ^ 64))].

(** beacon-api-client/src/types.rs:435-442 *)
Definition j_api_types_ProposerDuty : Ty := TRec [
  ("pubkey", THex (Exactly (Lit 48)));
  ("validator_index", TText (2 ^ 64));
  ("slot", TText (2 ^ 64))].

(** beacon-api-client/src/types.rs:445-452 *)
Definition j_api_types_SyncCommitteeDuty : Ty := TRec [
  ("pubkey", THex (Exactly (Lit 48)));
  ("validator_index", TText (2 ^ 64));
  ("validator_sync_committee_indices", TTextSeq (AnyLen) (2 ^ 64))].

(** beacon-api-client/src/types.rs:455-465 *)
Definition j_api_types_CommitteeDescriptor : Ty := TRec [
  ("validator_index", TText (2 ^ 64));
  ("committee_index", TText (2 ^ 64));
  ("committees_at_slot", TText (2 ^ 64));
  ("slot", TText (2 ^ 64));
  ("is_aggregator", TBool)].

(** beacon-api-client/src/types.rs:468-475 *)
Definition j_api_types_SyncCommitteeDescriptor : Ty := TRec [
  ("validator_index", TText (2 ^ 64));
  ("sync_committee_indices", TTextSeq (AnyLen) (2 ^ 64));
  ("until_epoch", TText (2 ^ 64))].

(** beacon-api-client/src/types.rs:489-493 *)
Definition j_api_types_BeaconProposerRegistration : Ty := TRec [
  ("validator_index", TText (2 ^ 64));
  ("fee_recipient", THex (Exactly (Lit 20)))].

(** beacon-api-client/src/types.rs:496-500 *)
Definition j_api_types_ValidatorLiveness : Ty := TRec [
  ("index", TText (2 ^ 64));
  ("is_live", TBool)].

Definition containers : list (string * Ty) := [
  ("phase0_Eth1Data", j_phase0_Eth1Data);
  ("phase0_BeaconBlockHeader", j_phase0_BeaconBlockHeader);
  ("phase0_SignedBeaconBlockHeader", j_phase0_SignedBeaconBlockHeader);
  ("phase0_ProposerSlashing", j_phase0_ProposerSlashing);
  ("phase0_Checkpoint", j_phase0_Checkpoint);
  ("phase0_AttestationData", j_phase0_AttestationData);
  ("phase0_IndexedAttestation", j_phase0_IndexedAttestation);
  ("phase0_AttesterSlashing", j_phase0_AttesterSlashing);
  ("phase0_Attestation", j_phase0_Attestation);
  ("phase0_DepositData", j_phase0_DepositData);
  ("phase0_Deposit", j_phase0_Deposit);
  ("phase0_VoluntaryExit", j_phase0_VoluntaryExit);
  ("phase0_SignedVoluntaryExit", j_phase0_SignedVoluntaryExit);
  ("altair_SyncAggregate", j_altair_SyncAggregate);
  ("altair_BeaconBlockBody", j_altair_BeaconBlockBody);
  ("altair_BeaconBlock", j_altair_BeaconBlock);
  ("altair_SignedBeaconBlock", j_altair_SignedBeaconBlock);
  ("phase0_Fork", j_phase0_Fork);
  ("phase0_Validator", j_phase0_Validator);
  ("altair_SyncCommittee", j_altair_SyncCommittee);
  ("altair_BeaconState", j_altair_BeaconState);
  ("altair_LightClientHeader", j_altair_LightClientHeader);
  ("altair_LightClientBootstrap", j_altair_LightClientBootstrap);
  ("altair_LightClientUpdate", j_altair_LightClientUpdate);
  ("altair_LightClientFinalityUpdate", j_altair_LightClientFinalityUpdate);
  ("altair_LightClientOptimisticUpdate", j_altair_LightClientOptimisticUpdate);
  ("altair_MetaData", j_altair_MetaData);
  ("altair_SyncCommitteeMessage", j_altair_SyncCommitteeMessage);
  ("altair_SyncCommitteeContribution", j_altair_SyncCommitteeContribution);
  ("altair_ContributionAndProof", j_altair_ContributionAndProof);
  ("altair_SignedContributionAndProof", j_altair_SignedContributionAndProof);
  ("altair_SyncAggregatorSelectionData", j_altair_SyncAggregatorSelectionData);
  ("bellatrix_ExecutionPayload", j_bellatrix_ExecutionPayload);
  ("bellatrix_BeaconBlockBody", j_bellatrix_BeaconBlockBody);
  ("bellatrix_BeaconBlock", j_bellatrix_BeaconBlock);
  ("bellatrix_SignedBeaconBlock", j_bellatrix_SignedBeaconBlock);
  ("bellatrix_ExecutionPayloadHeader", j_bellatrix_ExecutionPayloadHeader);
  ("bellatrix_BeaconState", j_bellatrix_BeaconState);
  ("bellatrix_BlindedBeaconBlockBody", j_bellatrix_BlindedBeaconBlockBody);
  ("bellatrix_BlindedBeaconBlock", j_bellatrix_BlindedBeaconBlock);
  ("bellatrix_SignedBlindedBeaconBlock", j_bellatrix_SignedBlindedBeaconBlock);
  ("bellatrix_PowBlock", j_bellatrix_PowBlock);
  ("builder_ValidatorRegistration", j_builder_ValidatorRegistration);
  ("builder_SignedValidatorRegistration", j_builder_SignedValidatorRegistration);
  ("capella_Withdrawal", j_capella_Withdrawal);
  ("capella_ExecutionPayload", j_capella_ExecutionPayload);
  ("capella_BlsToExecutionChange", j_capella_BlsToExecutionChange);
  ("capella_SignedBlsToExecutionChange", j_capella_SignedBlsToExecutionChange);
  ("capella_BeaconBlockBody", j_capella_BeaconBlockBody);
  ("capella_BeaconBlock", j_capella_BeaconBlock);
  ("capella_SignedBeaconBlock", j_capella_SignedBeaconBlock);
  ("capella_ExecutionPayloadHeader", j_capella_ExecutionPayloadHeader);
  ("phase0_HistoricalSummary", j_phase0_HistoricalSummary);
  ("capella_BeaconState", j_capella_BeaconState);
  ("capella_BlindedBeaconBlockBody", j_capella_BlindedBeaconBlockBody);
  ("capella_BlindedBeaconBlock", j_capella_BlindedBeaconBlock);
  ("capella_SignedBlindedBeaconBlock", j_capella_SignedBlindedBeaconBlock);
  ("capella_LightClientHeader", j_capella_LightClientHeader);
  ("capella_LightClientBootstrap", j_capella_LightClientBootstrap);
  ("capella_LightClientUpdate", j_capella_LightClientUpdate);
  ("capella_LightClientFinalityUpdate", j_capella_LightClientFinalityUpdate);
  ("capella_LightClientOptimisticUpdate", j_capella_LightClientOptimisticUpdate);
  ("deneb_ExecutionPayload", j_deneb_ExecutionPayload);
  ("deneb_BeaconBlockBody", j_deneb_BeaconBlockBody);
  ("deneb_BeaconBlock", j_deneb_BeaconBlock);
  ("deneb_SignedBeaconBlock", j_deneb_SignedBeaconBlock);
  ("deneb_ExecutionPayloadHeader", j_deneb_ExecutionPayloadHeader);
  ("deneb_BeaconState", j_deneb_BeaconState);
  ("deneb_BlindedBeaconBlockBody", j_deneb_BlindedBeaconBlockBody);
  ("deneb_BlindedBeaconBlock", j_deneb_BlindedBeaconBlock);
  ("deneb_SignedBlindedBeaconBlock", j_deneb_SignedBlindedBeaconBlock);
  ("deneb_BlobIdentifier", j_deneb_BlobIdentifier);
  ("deneb_BlobsBundle", j_deneb_BlobsBundle);
  ("deneb_BlobSidecar", j_deneb_BlobSidecar);
  ("deneb_LightClientHeader", j_deneb_LightClientHeader);
  ("deneb_LightClientBootstrap", j_deneb_LightClientBootstrap);
  ("deneb_LightClientUpdate", j_deneb_LightClientUpdate);
  ("deneb_LightClientFinalityUpdate", j_deneb_LightClientFinalityUpdate);
  ("deneb_LightClientOptimisticUpdate", j_deneb_LightClientOptimisticUpdate);
  ("electra_IndexedAttestation", j_electra_IndexedAttestation);
  ("electra_AttesterSlashing", j_electra_AttesterSlashing);
  ("electra_Attestation", j_electra_Attestation);
  ("electra_DepositReceipt", j_electra_DepositReceipt);
  ("electra_ExecutionLayerWithdrawalRequest", j_electra_ExecutionLayerWithdrawalRequest);
  ("electra_ExecutionPayload", j_electra_ExecutionPayload);
  ("electra_Consolidation", j_electra_Consolidation);
  ("electra_SignedConsolidation", j_electra_SignedConsolidation);
  ("electra_BeaconBlockBody", j_electra_BeaconBlockBody);
  ("electra_BeaconBlock", j_electra_BeaconBlock);
  ("electra_SignedBeaconBlock", j_electra_SignedBeaconBlock);
  ("electra_PendingBalanceDeposit", j_electra_PendingBalanceDeposit);
  ("electra_PendingPartialWithdrawal", j_electra_PendingPartialWithdrawal);
  ("electra_PendingConsolidation", j_electra_PendingConsolidation);
  ("electra_ExecutionPayloadHeader", j_electra_ExecutionPayloadHeader);
  ("electra_BeaconState", j_electra_BeaconState);
  ("phase0_BeaconBlockBody", j_phase0_BeaconBlockBody);
  ("phase0_BeaconBlock", j_phase0_BeaconBlock);
  ("phase0_SignedBeaconBlock", j_phase0_SignedBeaconBlock);
  ("phase0_ForkData", j_phase0_ForkData);
  ("phase0_HistoricalBatch", j_phase0_HistoricalBatch);
  ("phase0_PendingAttestation", j_phase0_PendingAttestation);
  ("phase0_BeaconState", j_phase0_BeaconState);
  ("phase0_MetaData", j_phase0_MetaData);
  ("phase0_DepositMessage", j_phase0_DepositMessage);
  ("phase0_Eth1Block", j_phase0_Eth1Block);
  ("phase0_AggregateAndProof", j_phase0_AggregateAndProof);
  ("phase0_SignedAggregateAndProof", j_phase0_SignedAggregateAndProof);
  ("primitives_Coordinate", j_primitives_Coordinate);
  ("api_types_DepositContract", j_api_types_DepositContract);
  ("api_types_DepositSnapshot", j_api_types_DepositSnapshot);
  ("api_types_GenesisDetails", j_api_types_GenesisDetails);
  ("api_types_RootData", j_api_types_RootData);
  ("api_types_FinalityCheckpoints", j_api_types_FinalityCheckpoints);
  ("api_types_BalanceSummary", j_api_types_BalanceSummary);
  ("api_types_BeaconHeaderSummary", j_api_types_BeaconHeaderSummary);
  ("api_types_PeerSummary", j_api_types_PeerSummary);
  ("api_types_SyncStatus", j_api_types_SyncStatus);
  ("api_types_AttestationDuty", j_api_types_AttestationDuty);
  ("api_types_ProposerDuty", j_api_types_ProposerDuty);
  ("api_types_SyncCommitteeDuty", j_api_types_SyncCommitteeDuty);
  ("api_types_CommitteeDescriptor", j_api_types_CommitteeDescriptor);
  ("api_types_SyncCommitteeDescriptor", j_api_types_SyncCommitteeDescriptor);
  ("api_types_BeaconProposerRegistration", j_api_types_BeaconProposerRegistration);
  ("api_types_ValidatorLiveness", j_api_types_ValidatorLiveness)].
