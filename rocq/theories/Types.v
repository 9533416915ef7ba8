(** * Types: containers of the repository as records.   GENERATED by tools/gen_types.py

    Simplifications: [u64]/[usize] are [N]; fixed-size byte vectors, BLS keys and signatures are byte
    lists; SSZ [List]/[Vector]/[Bitlist]/[Bitvector] are plain lists (their capacity bounds are only checked by
    hashing, see [htr] in Env.v).  Containers whose shape differs between forks are modelled by the union of the
    fields; a function of a fork only touches the fields its fork has. *)
From Verif Require Import Base.

Inductive Fork : Type := Phase0 | Altair | Bellatrix | Capella | Deneb | Electra. (* fork.rs:6-13 *)
Definition Fork_eq_dec : forall a b : Fork, {a = b} + {a <> b}.
Proof. decide equality. Defined.
Definition Fork_eqb (a b : Fork) : bool := if Fork_eq_dec a b then true else false.
Definition fork_num (f : Fork) : N :=
  match f with Phase0 => 0 | Altair => 1 | Bellatrix => 2 | Capella => 3 | Deneb => 4 | Electra => 5 end.
Definition fork_le (a b : Fork) : bool := fork_num a <=? fork_num b.

Definition bytes_eq_dec : forall a b : bytes, {a = b} + {a <> b} := list_eq_dec N.eq_dec.

(** phase0/operations.rs:13-17 *)
Record Checkpoint : Type := mkCheckpoint {
  cp_epoch : N;
  cp_root : Root }.
Definition Checkpoint_eq_dec : forall a b : Checkpoint, {a = b} + {a <> b}.
Proof. decide equality; auto using N.eq_dec, bytes_eq_dec, Bool.bool_dec. Defined.
Definition Checkpoint_eqb (a b : Checkpoint) : bool := if Checkpoint_eq_dec a b then true else false.

(** phase0/operations.rs:22-30 *)
Record AttestationData : Type := mkAttData {
  ad_slot : N;
  ad_index : N;
  ad_beacon_block_root : Root;
  ad_source : Checkpoint;
  ad_target : Checkpoint }.
Definition AttestationData_eq_dec : forall a b : AttestationData, {a = b} + {a <> b}.
Proof. decide equality; auto using N.eq_dec, bytes_eq_dec, Bool.bool_dec, Checkpoint_eq_dec. Defined.
Definition AttestationData_eqb (a b : AttestationData) : bool := if AttestationData_eq_dec a b then true else false.

(** phase0/operations.rs:35-40; electra/operations.rs:18-23 *)
Record IndexedAttestation : Type := mkIndexed {
  ia_attesting_indices : list N;
  ia_data : AttestationData;
  ia_signature : bytes }.

(** phase0/operations.rs:45-52 *)
Record PendingAttestation : Type := mkPending {
  pa_aggregation_bits : list bool;
  pa_data : AttestationData;
  pa_inclusion_delay : N;
  pa_proposer_index : N }.

(** phase0/operations.rs:57-61; electra/operations.rs:28-33 (the [committee_bits] field exists only in electra) *)
Record Attestation : Type := mkAtt {
  at_aggregation_bits : list bool;
  at_data : AttestationData;
  at_committee_bits : list bool;
  at_signature : bytes }.

(** phase0/operations.rs:66-71 *)
Record Eth1Data : Type := mkEth1 {
  e1_deposit_root : Root;
  e1_deposit_count : N;
  e1_block_hash : bytes }.
Definition Eth1Data_eq_dec : forall a b : Eth1Data, {a = b} + {a <> b}.
Proof. decide equality; auto using N.eq_dec, bytes_eq_dec, Bool.bool_dec. Defined.
Definition Eth1Data_eqb (a b : Eth1Data) : bool := if Eth1Data_eq_dec a b then true else false.

(** phase0/operations.rs:74-80 *)
Record DepositMessage : Type := mkDepMsg {
  dm_public_key : bytes;
  dm_withdrawal_credentials : bytes;
  dm_amount : N }.

(** phase0/operations.rs:85-92 *)
Record DepositData : Type := mkDepData {
  dd_public_key : bytes;
  dd_withdrawal_credentials : bytes;
  dd_amount : N;
  dd_signature : bytes }.

(** phase0/operations.rs:119-122 *)
Record Deposit : Type := mkDeposit {
  dep_proof : list bytes;
  dep_data : DepositData }.

(** phase0/beacon_block.rs:83-91 *)
Record BeaconBlockHeader : Type := mkHeader {
  bh_slot : N;
  bh_proposer_index : N;
  bh_parent_root : Root;
  bh_state_root : Root;
  bh_body_root : Root }.
Definition BeaconBlockHeader_eq_dec : forall a b : BeaconBlockHeader, {a = b} + {a <> b}.
Proof. decide equality; auto using N.eq_dec, bytes_eq_dec, Bool.bool_dec. Defined.
Definition BeaconBlockHeader_eqb (a b : BeaconBlockHeader) : bool := if BeaconBlockHeader_eq_dec a b then true else false.

(** phase0/beacon_block.rs:96-99 *)
Record SignedBeaconBlockHeader : Type := mkSignedHeader {
  sbh_message : BeaconBlockHeader;
  sbh_signature : bytes }.

(** phase0/operations.rs:97-100 *)
Record ProposerSlashing : Type := mkPSlash {
  ps_1 : SignedBeaconBlockHeader;
  ps_2 : SignedBeaconBlockHeader }.

(** phase0/operations.rs:105-108 *)
Record AttesterSlashing : Type := mkASlash {
  as_1 : IndexedAttestation;
  as_2 : IndexedAttestation }.

(** phase0/operations.rs:127-132 *)
Record VoluntaryExit : Type := mkExit {
  ve_epoch : N;
  ve_validator_index : N }.

(** phase0/operations.rs:137-140 *)
Record SignedVoluntaryExit : Type := mkSignedExit {
  sve_message : VoluntaryExit;
  sve_signature : bytes }.

(** phase0/validator.rs:10-26 *)
Record Validator : Type := mkValidator {
  v_public_key : bytes;
  v_withdrawal_credentials : bytes;
  v_effective_balance : N;
  v_slashed : bool;
  v_activation_eligibility_epoch : N;
  v_activation_epoch : N;
  v_exit_epoch : N;
  v_withdrawable_epoch : N }.
Definition set_v_public_key (x : bytes) (s : Validator) : Validator :=
  mkValidator x (v_withdrawal_credentials s) (v_effective_balance s) (v_slashed s) (v_activation_eligibility_epoch s) (v_activation_epoch s) (v_exit_epoch s) (v_withdrawable_epoch s).
Lemma set_v_public_key_id s : set_v_public_key (v_public_key s) s = s. Proof. destruct s; reflexivity. Qed.
Definition set_v_withdrawal_credentials (x : bytes) (s : Validator) : Validator :=
  mkValidator (v_public_key s) x (v_effective_balance s) (v_slashed s) (v_activation_eligibility_epoch s) (v_activation_epoch s) (v_exit_epoch s) (v_withdrawable_epoch s).
Lemma set_v_withdrawal_credentials_id s : set_v_withdrawal_credentials (v_withdrawal_credentials s) s = s. Proof. destruct s; reflexivity. Qed.
Definition set_v_effective_balance (x : N) (s : Validator) : Validator :=
  mkValidator (v_public_key s) (v_withdrawal_credentials s) x (v_slashed s) (v_activation_eligibility_epoch s) (v_activation_epoch s) (v_exit_epoch s) (v_withdrawable_epoch s).
Lemma set_v_effective_balance_id s : set_v_effective_balance (v_effective_balance s) s = s. Proof. destruct s; reflexivity. Qed.
Definition set_v_slashed (x : bool) (s : Validator) : Validator :=
  mkValidator (v_public_key s) (v_withdrawal_credentials s) (v_effective_balance s) x (v_activation_eligibility_epoch s) (v_activation_epoch s) (v_exit_epoch s) (v_withdrawable_epoch s).
Lemma set_v_slashed_id s : set_v_slashed (v_slashed s) s = s. Proof. destruct s; reflexivity. Qed.
Definition set_v_activation_eligibility_epoch (x : N) (s : Validator) : Validator :=
  mkValidator (v_public_key s) (v_withdrawal_credentials s) (v_effective_balance s) (v_slashed s) x (v_activation_epoch s) (v_exit_epoch s) (v_withdrawable_epoch s).
Lemma set_v_activation_eligibility_epoch_id s : set_v_activation_eligibility_epoch (v_activation_eligibility_epoch s) s = s. Proof. destruct s; reflexivity. Qed.
Definition set_v_activation_epoch (x : N) (s : Validator) : Validator :=
  mkValidator (v_public_key s) (v_withdrawal_credentials s) (v_effective_balance s) (v_slashed s) (v_activation_eligibility_epoch s) x (v_exit_epoch s) (v_withdrawable_epoch s).
Lemma set_v_activation_epoch_id s : set_v_activation_epoch (v_activation_epoch s) s = s. Proof. destruct s; reflexivity. Qed.
Definition set_v_exit_epoch (x : N) (s : Validator) : Validator :=
  mkValidator (v_public_key s) (v_withdrawal_credentials s) (v_effective_balance s) (v_slashed s) (v_activation_eligibility_epoch s) (v_activation_epoch s) x (v_withdrawable_epoch s).
Lemma set_v_exit_epoch_id s : set_v_exit_epoch (v_exit_epoch s) s = s. Proof. destruct s; reflexivity. Qed.
Definition set_v_withdrawable_epoch (x : N) (s : Validator) : Validator :=
  mkValidator (v_public_key s) (v_withdrawal_credentials s) (v_effective_balance s) (v_slashed s) (v_activation_eligibility_epoch s) (v_activation_epoch s) (v_exit_epoch s) x.
Lemma set_v_withdrawable_epoch_id s : set_v_withdrawable_epoch (v_withdrawable_epoch s) s = s. Proof. destruct s; reflexivity. Qed.

(** phase0/beacon_state.rs:15-22 *)
Record ForkRec : Type := mkForkRec {
  fk_previous_version : bytes;
  fk_current_version : bytes;
  fk_epoch : N }.

(** altair/sync.rs:9-12 *)
Record SyncAggregate : Type := mkSyncAgg {
  sa_bits : list bool;
  sa_signature : bytes }.

(** altair/sync.rs:17-22 *)
Record SyncCommittee : Type := mkSyncCom {
  sc_public_keys : list bytes;
  sc_aggregate_public_key : bytes }.

(** capella/withdrawal.rs:9-17 *)
Record Withdrawal : Type := mkWithdrawal {
  w_index : N;
  w_validator_index : N;
  w_address : bytes;
  w_amount : N }.
Definition Withdrawal_eq_dec : forall a b : Withdrawal, {a = b} + {a <> b}.
Proof. decide equality; auto using N.eq_dec, bytes_eq_dec, Bool.bool_dec. Defined.
Definition Withdrawal_eqb (a b : Withdrawal) : bool := if Withdrawal_eq_dec a b then true else false.

(** capella/bls_to_execution_change.rs:9-15 *)
Record BlsToExecutionChange : Type := mkBlsChange {
  bc_validator_index : N;
  bc_from_bls_public_key : bytes;
  bc_to_execution_address : bytes }.

(** capella/bls_to_execution_change.rs:20-23 *)
Record SignedBlsToExecutionChange : Type := mkSignedBlsChange {
  sbc_message : BlsToExecutionChange;
  sbc_signature : bytes }.

(** phase0/beacon_state.rs:42-45 *)
Record HistoricalSummary : Type := mkHistSum {
  hs_block_summary_root : Root;
  hs_state_summary_root : Root }.

(** electra/beacon_state.rs:16-25 *)
Record DepositReceipt : Type := mkReceipt {
  dr_public_key : bytes;
  dr_withdrawal_credentials : bytes;
  dr_amount : N;
  dr_signature : bytes;
  dr_index : N }.

(** electra/beacon_state.rs:30-35 *)
Record PendingBalanceDeposit : Type := mkPBD {
  pbd_index : N;
  pbd_amount : N }.

(** electra/beacon_state.rs:40-47 *)
Record PendingPartialWithdrawal : Type := mkPPW {
  ppw_index : N;
  ppw_amount : N;
  ppw_withdrawable_epoch : N }.

(** electra/beacon_state.rs:62-68 *)
Record ExecutionLayerWithdrawalRequest : Type := mkELW {
  elw_source_address : bytes;
  elw_validator_public_key : bytes;
  elw_amount : N }.

(** electra/beacon_state.rs:52-57 *)
Record PendingConsolidation : Type := mkPC {
  pc_source_index : N;
  pc_target_index : N }.

(** electra/operations.rs:38-45 *)
Record Consolidation : Type := mkConsolidation {
  cn_source_index : N;
  cn_target_index : N;
  cn_epoch : N }.

(** electra/operations.rs:50-53 *)
Record SignedConsolidation : Type := mkSignedConsolidation {
  scn_message : Consolidation;
  scn_signature : bytes }.

(** electra/execution_payload.rs:13-49 (superset; withdrawals from capella on, blob gas from deneb on, receipts and requests only in electra) *)
Record ExecutionPayload : Type := mkPayload {
  ep_parent_hash : bytes;
  ep_fee_recipient : bytes;
  ep_state_root : bytes;
  ep_receipts_root : bytes;
  ep_logs_bloom : bytes;
  ep_prev_randao : bytes;
  ep_block_number : N;
  ep_gas_limit : N;
  ep_gas_used : N;
  ep_timestamp : N;
  ep_extra_data : bytes;
  ep_base_fee_per_gas : N;
  ep_block_hash : bytes;
  ep_transactions : list bytes;
  ep_withdrawals : list Withdrawal;
  ep_blob_gas_used : N;
  ep_excess_blob_gas : N;
  ep_deposit_receipts : list DepositReceipt;
  ep_withdrawal_requests : list ExecutionLayerWithdrawalRequest }.

(** electra/execution_payload.rs:54-84 (superset) *)
Record ExecutionPayloadHeader : Type := mkPayloadHeader {
  eph_parent_hash : bytes;
  eph_fee_recipient : bytes;
  eph_state_root : bytes;
  eph_receipts_root : bytes;
  eph_logs_bloom : bytes;
  eph_prev_randao : bytes;
  eph_block_number : N;
  eph_gas_limit : N;
  eph_gas_used : N;
  eph_timestamp : N;
  eph_extra_data : bytes;
  eph_base_fee_per_gas : N;
  eph_block_hash : bytes;
  eph_transactions_root : Root;
  eph_withdrawals_root : Root;
  eph_blob_gas_used : N;
  eph_excess_blob_gas : N;
  eph_deposit_receipts_root : Root;
  eph_withdrawal_requests_root : Root }.
Definition ExecutionPayloadHeader_eq_dec : forall a b : ExecutionPayloadHeader, {a = b} + {a <> b}.
Proof. decide equality; auto using N.eq_dec, bytes_eq_dec, Bool.bool_dec. Defined.
Definition ExecutionPayloadHeader_eqb (a b : ExecutionPayloadHeader) : bool := if ExecutionPayloadHeader_eq_dec a b then true else false.

(** electra/beacon_block.rs:17-59 (superset of all forks) *)
Record BeaconBlockBody : Type := mkBody {
  bb_randao_reveal : bytes;
  bb_eth1_data : Eth1Data;
  bb_graffiti : bytes;
  bb_proposer_slashings : list ProposerSlashing;
  bb_attester_slashings : list AttesterSlashing;
  bb_attestations : list Attestation;
  bb_deposits : list Deposit;
  bb_voluntary_exits : list SignedVoluntaryExit;
  bb_sync_aggregate : SyncAggregate;
  bb_execution_payload : ExecutionPayload;
  bb_bls_to_execution_changes : list SignedBlsToExecutionChange;
  bb_blob_kzg_commitments : list bytes;
  bb_consolidations : list SignedConsolidation }.

(** electra/beacon_block.rs:64-110 *)
Record BeaconBlock : Type := mkBlock {
  bk_slot : N;
  bk_proposer_index : N;
  bk_parent_root : Root;
  bk_state_root : Root;
  bk_body : BeaconBlockBody }.

(** electra/beacon_block.rs:115-156 *)
Record SignedBeaconBlock : Type := mkSignedBlock {
  sb_message : BeaconBlock;
  sb_signature : bytes }.

(** phase0/beacon_state.rs:50-88, altair/beacon_state.rs:13-55, bellatrix/beacon_state.rs:13-59, capella/beacon_state.rs:13-64, electra/beacon_state.rs:73-143 (union of the fields of all forks) *)
Record BeaconState : Type := mkState {
  genesis_time : N;
  genesis_validators_root : Root;
  slot : N;
  fork : ForkRec;
  latest_block_header : BeaconBlockHeader;
  block_roots : list Root;
  state_roots : list Root;
  historical_roots : list Root;
  eth1_data : Eth1Data;
  eth1_data_votes : list Eth1Data;
  eth1_deposit_index : N;
  validators : list Validator;
  balances : list N;
  randao_mixes : list bytes;
  slashings : list N;
  previous_epoch_attestations : list PendingAttestation;
  current_epoch_attestations : list PendingAttestation;
  previous_epoch_participation : list N;
  current_epoch_participation : list N;
  justification_bits : list bool;
  previous_justified_checkpoint : Checkpoint;
  current_justified_checkpoint : Checkpoint;
  finalized_checkpoint : Checkpoint;
  inactivity_scores : list N;
  current_sync_committee : SyncCommittee;
  next_sync_committee : SyncCommittee;
  latest_execution_payload_header : ExecutionPayloadHeader;
  next_withdrawal_index : N;
  next_withdrawal_validator_index : N;
  historical_summaries : list HistoricalSummary;
  deposit_receipts_start_index : N;
  deposit_balance_to_consume : N;
  exit_balance_to_consume : N;
  earliest_exit_epoch : N;
  consolidation_balance_to_consume : N;
  earliest_consolidation_epoch : N;
  pending_balance_deposits : list PendingBalanceDeposit;
  pending_partial_withdrawals : list PendingPartialWithdrawal;
  pending_consolidations : list PendingConsolidation }.
Definition set_genesis_time (x : N) (s : BeaconState) : BeaconState :=
  mkState x (genesis_validators_root s) (slot s) (fork s) (latest_block_header s) (block_roots s) (state_roots s) (historical_roots s) (eth1_data s) (eth1_data_votes s) (eth1_deposit_index s) (validators s) (balances s) (randao_mixes s) (slashings s) (previous_epoch_attestations s) (current_epoch_attestations s) (previous_epoch_participation s) (current_epoch_participation s) (justification_bits s) (previous_justified_checkpoint s) (current_justified_checkpoint s) (finalized_checkpoint s) (inactivity_scores s) (current_sync_committee s) (next_sync_committee s) (latest_execution_payload_header s) (next_withdrawal_index s) (next_withdrawal_validator_index s) (historical_summaries s) (deposit_receipts_start_index s) (deposit_balance_to_consume s) (exit_balance_to_consume s) (earliest_exit_epoch s) (consolidation_balance_to_consume s) (earliest_consolidation_epoch s) (pending_balance_deposits s) (pending_partial_withdrawals s) (pending_consolidations s).
Lemma set_genesis_time_id s : set_genesis_time (genesis_time s) s = s. Proof. destruct s; reflexivity. Qed.
Definition set_genesis_validators_root (x : Root) (s : BeaconState) : BeaconState :=
  mkState (genesis_time s) x (slot s) (fork s) (latest_block_header s) (block_roots s) (state_roots s) (historical_roots s) (eth1_data s) (eth1_data_votes s) (eth1_deposit_index s) (validators s) (balances s) (randao_mixes s) (slashings s) (previous_epoch_attestations s) (current_epoch_attestations s) (previous_epoch_participation s) (current_epoch_participation s) (justification_bits s) (previous_justified_checkpoint s) (current_justified_checkpoint s) (finalized_checkpoint s) (inactivity_scores s) (current_sync_committee s) (next_sync_committee s) (latest_execution_payload_header s) (next_withdrawal_index s) (next_withdrawal_validator_index s) (historical_summaries s) (deposit_receipts_start_index s) (deposit_balance_to_consume s) (exit_balance_to_consume s) (earliest_exit_epoch s) (consolidation_balance_to_consume s) (earliest_consolidation_epoch s) (pending_balance_deposits s) (pending_partial_withdrawals s) (pending_consolidations s).
Lemma set_genesis_validators_root_id s : set_genesis_validators_root (genesis_validators_root s) s = s. Proof. destruct s; reflexivity. Qed.
Definition set_slot (x : N) (s : BeaconState) : BeaconState :=
  mkState (genesis_time s) (genesis_validators_root s) x (fork s) (latest_block_header s) (block_roots s) (state_roots s) (historical_roots s) (eth1_data s) (eth1_data_votes s) (eth1_deposit_index s) (validators s) (balances s) (randao_mixes s) (slashings s) (previous_epoch_attestations s) (current_epoch_attestations s) (previous_epoch_participation s) (current_epoch_participation s) (justification_bits s) (previous_justified_checkpoint s) (current_justified_checkpoint s) (finalized_checkpoint s) (inactivity_scores s) (current_sync_committee s) (next_sync_committee s) (latest_execution_payload_header s) (next_withdrawal_index s) (next_withdrawal_validator_index s) (historical_summaries s) (deposit_receipts_start_index s) (deposit_balance_to_consume s) (exit_balance_to_consume s) (earliest_exit_epoch s) (consolidation_balance_to_consume s) (earliest_consolidation_epoch s) (pending_balance_deposits s) (pending_partial_withdrawals s) (pending_consolidations s).
Lemma set_slot_id s : set_slot (slot s) s = s. Proof. destruct s; reflexivity. Qed.
Definition set_fork (x : ForkRec) (s : BeaconState) : BeaconState :=
  mkState (genesis_time s) (genesis_validators_root s) (slot s) x (latest_block_header s) (block_roots s) (state_roots s) (historical_roots s) (eth1_data s) (eth1_data_votes s) (eth1_deposit_index s) (validators s) (balances s) (randao_mixes s) (slashings s) (previous_epoch_attestations s) (current_epoch_attestations s) (previous_epoch_participation s) (current_epoch_participation s) (justification_bits s) (previous_justified_checkpoint s) (current_justified_checkpoint s) (finalized_checkpoint s) (inactivity_scores s) (current_sync_committee s) (next_sync_committee s) (latest_execution_payload_header s) (next_withdrawal_index s) (next_withdrawal_validator_index s) (historical_summaries s) (deposit_receipts_start_index s) (deposit_balance_to_consume s) (exit_balance_to_consume s) (earliest_exit_epoch s) (consolidation_balance_to_consume s) (earliest_consolidation_epoch s) (pending_balance_deposits s) (pending_partial_withdrawals s) (pending_consolidations s).
Lemma set_fork_id s : set_fork (fork s) s = s. Proof. destruct s; reflexivity. Qed.
Definition set_latest_block_header (x : BeaconBlockHeader) (s : BeaconState) : BeaconState :=
  mkState (genesis_time s) (genesis_validators_root s) (slot s) (fork s) x (block_roots s) (state_roots s) (historical_roots s) (eth1_data s) (eth1_data_votes s) (eth1_deposit_index s) (validators s) (balances s) (randao_mixes s) (slashings s) (previous_epoch_attestations s) (current_epoch_attestations s) (previous_epoch_participation s) (current_epoch_participation s) (justification_bits s) (previous_justified_checkpoint s) (current_justified_checkpoint s) (finalized_checkpoint s) (inactivity_scores s) (current_sync_committee s) (next_sync_committee s) (latest_execution_payload_header s) (next_withdrawal_index s) (next_withdrawal_validator_index s) (historical_summaries s) (deposit_receipts_start_index s) (deposit_balance_to_consume s) (exit_balance_to_consume s) (earliest_exit_epoch s) (consolidation_balance_to_consume s) (earliest_consolidation_epoch s) (pending_balance_deposits s) (pending_partial_withdrawals s) (pending_consolidations s).
Lemma set_latest_block_header_id s : set_latest_block_header (latest_block_header s) s = s. Proof. destruct s; reflexivity. Qed.
Definition set_block_roots (x : list Root) (s : BeaconState) : BeaconState :=
  mkState (genesis_time s) (genesis_validators_root s) (slot s) (fork s) (latest_block_header s) x (state_roots s) (historical_roots s) (eth1_data s) (eth1_data_votes s) (eth1_deposit_index s) (validators s) (balances s) (randao_mixes s) (slashings s) (previous_epoch_attestations s) (current_epoch_attestations s) (previous_epoch_participation s) (current_epoch_participation s) (justification_bits s) (previous_justified_checkpoint s) (current_justified_checkpoint s) (finalized_checkpoint s) (inactivity_scores s) (current_sync_committee s) (next_sync_committee s) (latest_execution_payload_header s) (next_withdrawal_index s) (next_withdrawal_validator_index s) (historical_summaries s) (deposit_receipts_start_index s) (deposit_balance_to_consume s) (exit_balance_to_consume s) (earliest_exit_epoch s) (consolidation_balance_to_consume s) (earliest_consolidation_epoch s) (pending_balance_deposits s) (pending_partial_withdrawals s) (pending_consolidations s).
Lemma set_block_roots_id s : set_block_roots (block_roots s) s = s. Proof. destruct s; reflexivity. Qed.
Definition set_state_roots (x : list Root) (s : BeaconState) : BeaconState :=
  mkState (genesis_time s) (genesis_validators_root s) (slot s) (fork s) (latest_block_header s) (block_roots s) x (historical_roots s) (eth1_data s) (eth1_data_votes s) (eth1_deposit_index s) (validators s) (balances s) (randao_mixes s) (slashings s) (previous_epoch_attestations s) (current_epoch_attestations s) (previous_epoch_participation s) (current_epoch_participation s) (justification_bits s) (previous_justified_checkpoint s) (current_justified_checkpoint s) (finalized_checkpoint s) (inactivity_scores s) (current_sync_committee s) (next_sync_committee s) (latest_execution_payload_header s) (next_withdrawal_index s) (next_withdrawal_validator_index s) (historical_summaries s) (deposit_receipts_start_index s) (deposit_balance_to_consume s) (exit_balance_to_consume s) (earliest_exit_epoch s) (consolidation_balance_to_consume s) (earliest_consolidation_epoch s) (pending_balance_deposits s) (pending_partial_withdrawals s) (pending_consolidations s).
Lemma set_state_roots_id s : set_state_roots (state_roots s) s = s. Proof. destruct s; reflexivity. Qed.
Definition set_historical_roots (x : list Root) (s : BeaconState) : BeaconState :=
  mkState (genesis_time s) (genesis_validators_root s) (slot s) (fork s) (latest_block_header s) (block_roots s) (state_roots s) x (eth1_data s) (eth1_data_votes s) (eth1_deposit_index s) (validators s) (balances s) (randao_mixes s) (slashings s) (previous_epoch_attestations s) (current_epoch_attestations s) (previous_epoch_participation s) (current_epoch_participation s) (justification_bits s) (previous_justified_checkpoint s) (current_justified_checkpoint s) (finalized_checkpoint s) (inactivity_scores s) (current_sync_committee s) (next_sync_committee s) (latest_execution_payload_header s) (next_withdrawal_index s) (next_withdrawal_validator_index s) (historical_summaries s) (deposit_receipts_start_index s) (deposit_balance_to_consume s) (exit_balance_to_consume s) (earliest_exit_epoch s) (consolidation_balance_to_consume s) (earliest_consolidation_epoch s) (pending_balance_deposits s) (pending_partial_withdrawals s) (pending_consolidations s).
Lemma set_historical_roots_id s : set_historical_roots (historical_roots s) s = s. Proof. destruct s; reflexivity. Qed.
Definition set_eth1_data (x : Eth1Data) (s : BeaconState) : BeaconState :=
  mkState (genesis_time s) (genesis_validators_root s) (slot s) (fork s) (latest_block_header s) (block_roots s) (state_roots s) (historical_roots s) x (eth1_data_votes s) (eth1_deposit_index s) (validators s) (balances s) (randao_mixes s) (slashings s) (previous_epoch_attestations s) (current_epoch_attestations s) (previous_epoch_participation s) (current_epoch_participation s) (justification_bits s) (previous_justified_checkpoint s) (current_justified_checkpoint s) (finalized_checkpoint s) (inactivity_scores s) (current_sync_committee s) (next_sync_committee s) (latest_execution_payload_header s) (next_withdrawal_index s) (next_withdrawal_validator_index s) (historical_summaries s) (deposit_receipts_start_index s) (deposit_balance_to_consume s) (exit_balance_to_consume s) (earliest_exit_epoch s) (consolidation_balance_to_consume s) (earliest_consolidation_epoch s) (pending_balance_deposits s) (pending_partial_withdrawals s) (pending_consolidations s).
Lemma set_eth1_data_id s : set_eth1_data (eth1_data s) s = s. Proof. destruct s; reflexivity. Qed.
Definition set_eth1_data_votes (x : list Eth1Data) (s : BeaconState) : BeaconState :=
  mkState (genesis_time s) (genesis_validators_root s) (slot s) (fork s) (latest_block_header s) (block_roots s) (state_roots s) (historical_roots s) (eth1_data s) x (eth1_deposit_index s) (validators s) (balances s) (randao_mixes s) (slashings s) (previous_epoch_attestations s) (current_epoch_attestations s) (previous_epoch_participation s) (current_epoch_participation s) (justification_bits s) (previous_justified_checkpoint s) (current_justified_checkpoint s) (finalized_checkpoint s) (inactivity_scores s) (current_sync_committee s) (next_sync_committee s) (latest_execution_payload_header s) (next_withdrawal_index s) (next_withdrawal_validator_index s) (historical_summaries s) (deposit_receipts_start_index s) (deposit_balance_to_consume s) (exit_balance_to_consume s) (earliest_exit_epoch s) (consolidation_balance_to_consume s) (earliest_consolidation_epoch s) (pending_balance_deposits s) (pending_partial_withdrawals s) (pending_consolidations s).
Lemma set_eth1_data_votes_id s : set_eth1_data_votes (eth1_data_votes s) s = s. Proof. destruct s; reflexivity. Qed.
Definition set_eth1_deposit_index (x : N) (s : BeaconState) : BeaconState :=
  mkState (genesis_time s) (genesis_validators_root s) (slot s) (fork s) (latest_block_header s) (block_roots s) (state_roots s) (historical_roots s) (eth1_data s) (eth1_data_votes s) x (validators s) (balances s) (randao_mixes s) (slashings s) (previous_epoch_attestations s) (current_epoch_attestations s) (previous_epoch_participation s) (current_epoch_participation s) (justification_bits s) (previous_justified_checkpoint s) (current_justified_checkpoint s) (finalized_checkpoint s) (inactivity_scores s) (current_sync_committee s) (next_sync_committee s) (latest_execution_payload_header s) (next_withdrawal_index s) (next_withdrawal_validator_index s) (historical_summaries s) (deposit_receipts_start_index s) (deposit_balance_to_consume s) (exit_balance_to_consume s) (earliest_exit_epoch s) (consolidation_balance_to_consume s) (earliest_consolidation_epoch s) (pending_balance_deposits s) (pending_partial_withdrawals s) (pending_consolidations s).
Lemma set_eth1_deposit_index_id s : set_eth1_deposit_index (eth1_deposit_index s) s = s. Proof. destruct s; reflexivity. Qed.
Definition set_validators (x : list Validator) (s : BeaconState) : BeaconState :=
  mkState (genesis_time s) (genesis_validators_root s) (slot s) (fork s) (latest_block_header s) (block_roots s) (state_roots s) (historical_roots s) (eth1_data s) (eth1_data_votes s) (eth1_deposit_index s) x (balances s) (randao_mixes s) (slashings s) (previous_epoch_attestations s) (current_epoch_attestations s) (previous_epoch_participation s) (current_epoch_participation s) (justification_bits s) (previous_justified_checkpoint s) (current_justified_checkpoint s) (finalized_checkpoint s) (inactivity_scores s) (current_sync_committee s) (next_sync_committee s) (latest_execution_payload_header s) (next_withdrawal_index s) (next_withdrawal_validator_index s) (historical_summaries s) (deposit_receipts_start_index s) (deposit_balance_to_consume s) (exit_balance_to_consume s) (earliest_exit_epoch s) (consolidation_balance_to_consume s) (earliest_consolidation_epoch s) (pending_balance_deposits s) (pending_partial_withdrawals s) (pending_consolidations s).
Lemma set_validators_id s : set_validators (validators s) s = s. Proof. destruct s; reflexivity. Qed.
Definition set_balances (x : list N) (s : BeaconState) : BeaconState :=
  mkState (genesis_time s) (genesis_validators_root s) (slot s) (fork s) (latest_block_header s) (block_roots s) (state_roots s) (historical_roots s) (eth1_data s) (eth1_data_votes s) (eth1_deposit_index s) (validators s) x (randao_mixes s) (slashings s) (previous_epoch_attestations s) (current_epoch_attestations s) (previous_epoch_participation s) (current_epoch_participation s) (justification_bits s) (previous_justified_checkpoint s) (current_justified_checkpoint s) (finalized_checkpoint s) (inactivity_scores s) (current_sync_committee s) (next_sync_committee s) (latest_execution_payload_header s) (next_withdrawal_index s) (next_withdrawal_validator_index s) (historical_summaries s) (deposit_receipts_start_index s) (deposit_balance_to_consume s) (exit_balance_to_consume s) (earliest_exit_epoch s) (consolidation_balance_to_consume s) (earliest_consolidation_epoch s) (pending_balance_deposits s) (pending_partial_withdrawals s) (pending_consolidations s).
Lemma set_balances_id s : set_balances (balances s) s = s. Proof. destruct s; reflexivity. Qed.
Definition set_randao_mixes (x : list bytes) (s : BeaconState) : BeaconState :=
  mkState (genesis_time s) (genesis_validators_root s) (slot s) (fork s) (latest_block_header s) (block_roots s) (state_roots s) (historical_roots s) (eth1_data s) (eth1_data_votes s) (eth1_deposit_index s) (validators s) (balances s) x (slashings s) (previous_epoch_attestations s) (current_epoch_attestations s) (previous_epoch_participation s) (current_epoch_participation s) (justification_bits s) (previous_justified_checkpoint s) (current_justified_checkpoint s) (finalized_checkpoint s) (inactivity_scores s) (current_sync_committee s) (next_sync_committee s) (latest_execution_payload_header s) (next_withdrawal_index s) (next_withdrawal_validator_index s) (historical_summaries s) (deposit_receipts_start_index s) (deposit_balance_to_consume s) (exit_balance_to_consume s) (earliest_exit_epoch s) (consolidation_balance_to_consume s) (earliest_consolidation_epoch s) (pending_balance_deposits s) (pending_partial_withdrawals s) (pending_consolidations s).
Lemma set_randao_mixes_id s : set_randao_mixes (randao_mixes s) s = s. Proof. destruct s; reflexivity. Qed.
Definition set_slashings (x : list N) (s : BeaconState) : BeaconState :=
  mkState (genesis_time s) (genesis_validators_root s) (slot s) (fork s) (latest_block_header s) (block_roots s) (state_roots s) (historical_roots s) (eth1_data s) (eth1_data_votes s) (eth1_deposit_index s) (validators s) (balances s) (randao_mixes s) x (previous_epoch_attestations s) (current_epoch_attestations s) (previous_epoch_participation s) (current_epoch_participation s) (justification_bits s) (previous_justified_checkpoint s) (current_justified_checkpoint s) (finalized_checkpoint s) (inactivity_scores s) (current_sync_committee s) (next_sync_committee s) (latest_execution_payload_header s) (next_withdrawal_index s) (next_withdrawal_validator_index s) (historical_summaries s) (deposit_receipts_start_index s) (deposit_balance_to_consume s) (exit_balance_to_consume s) (earliest_exit_epoch s) (consolidation_balance_to_consume s) (earliest_consolidation_epoch s) (pending_balance_deposits s) (pending_partial_withdrawals s) (pending_consolidations s).
Lemma set_slashings_id s : set_slashings (slashings s) s = s. Proof. destruct s; reflexivity. Qed.
Definition set_previous_epoch_attestations (x : list PendingAttestation) (s : BeaconState) : BeaconState :=
  mkState (genesis_time s) (genesis_validators_root s) (slot s) (fork s) (latest_block_header s) (block_roots s) (state_roots s) (historical_roots s) (eth1_data s) (eth1_data_votes s) (eth1_deposit_index s) (validators s) (balances s) (randao_mixes s) (slashings s) x (current_epoch_attestations s) (previous_epoch_participation s) (current_epoch_participation s) (justification_bits s) (previous_justified_checkpoint s) (current_justified_checkpoint s) (finalized_checkpoint s) (inactivity_scores s) (current_sync_committee s) (next_sync_committee s) (latest_execution_payload_header s) (next_withdrawal_index s) (next_withdrawal_validator_index s) (historical_summaries s) (deposit_receipts_start_index s) (deposit_balance_to_consume s) (exit_balance_to_consume s) (earliest_exit_epoch s) (consolidation_balance_to_consume s) (earliest_consolidation_epoch s) (pending_balance_deposits s) (pending_partial_withdrawals s) (pending_consolidations s).
Lemma set_previous_epoch_attestations_id s : set_previous_epoch_attestations (previous_epoch_attestations s) s = s. Proof. destruct s; reflexivity. Qed.
Definition set_current_epoch_attestations (x : list PendingAttestation) (s : BeaconState) : BeaconState :=
  mkState (genesis_time s) (genesis_validators_root s) (slot s) (fork s) (latest_block_header s) (block_roots s) (state_roots s) (historical_roots s) (eth1_data s) (eth1_data_votes s) (eth1_deposit_index s) (validators s) (balances s) (randao_mixes s) (slashings s) (previous_epoch_attestations s) x (previous_epoch_participation s) (current_epoch_participation s) (justification_bits s) (previous_justified_checkpoint s) (current_justified_checkpoint s) (finalized_checkpoint s) (inactivity_scores s) (current_sync_committee s) (next_sync_committee s) (latest_execution_payload_header s) (next_withdrawal_index s) (next_withdrawal_validator_index s) (historical_summaries s) (deposit_receipts_start_index s) (deposit_balance_to_consume s) (exit_balance_to_consume s) (earliest_exit_epoch s) (consolidation_balance_to_consume s) (earliest_consolidation_epoch s) (pending_balance_deposits s) (pending_partial_withdrawals s) (pending_consolidations s).
Lemma set_current_epoch_attestations_id s : set_current_epoch_attestations (current_epoch_attestations s) s = s. Proof. destruct s; reflexivity. Qed.
Definition set_previous_epoch_participation (x : list N) (s : BeaconState) : BeaconState :=
  mkState (genesis_time s) (genesis_validators_root s) (slot s) (fork s) (latest_block_header s) (block_roots s) (state_roots s) (historical_roots s) (eth1_data s) (eth1_data_votes s) (eth1_deposit_index s) (validators s) (balances s) (randao_mixes s) (slashings s) (previous_epoch_attestations s) (current_epoch_attestations s) x (current_epoch_participation s) (justification_bits s) (previous_justified_checkpoint s) (current_justified_checkpoint s) (finalized_checkpoint s) (inactivity_scores s) (current_sync_committee s) (next_sync_committee s) (latest_execution_payload_header s) (next_withdrawal_index s) (next_withdrawal_validator_index s) (historical_summaries s) (deposit_receipts_start_index s) (deposit_balance_to_consume s) (exit_balance_to_consume s) (earliest_exit_epoch s) (consolidation_balance_to_consume s) (earliest_consolidation_epoch s) (pending_balance_deposits s) (pending_partial_withdrawals s) (pending_consolidations s).
Lemma set_previous_epoch_participation_id s : set_previous_epoch_participation (previous_epoch_participation s) s = s. Proof. destruct s; reflexivity. Qed.
Definition set_current_epoch_participation (x : list N) (s : BeaconState) : BeaconState :=
  mkState (genesis_time s) (genesis_validators_root s) (slot s) (fork s) (latest_block_header s) (block_roots s) (state_roots s) (historical_roots s) (eth1_data s) (eth1_data_votes s) (eth1_deposit_index s) (validators s) (balances s) (randao_mixes s) (slashings s) (previous_epoch_attestations s) (current_epoch_attestations s) (previous_epoch_participation s) x (justification_bits s) (previous_justified_checkpoint s) (current_justified_checkpoint s) (finalized_checkpoint s) (inactivity_scores s) (current_sync_committee s) (next_sync_committee s) (latest_execution_payload_header s) (next_withdrawal_index s) (next_withdrawal_validator_index s) (historical_summaries s) (deposit_receipts_start_index s) (deposit_balance_to_consume s) (exit_balance_to_consume s) (earliest_exit_epoch s) (consolidation_balance_to_consume s) (earliest_consolidation_epoch s) (pending_balance_deposits s) (pending_partial_withdrawals s) (pending_consolidations s).
Lemma set_current_epoch_participation_id s : set_current_epoch_participation (current_epoch_participation s) s = s. Proof. destruct s; reflexivity. Qed.
Definition set_justification_bits (x : list bool) (s : BeaconState) : BeaconState :=
  mkState (genesis_time s) (genesis_validators_root s) (slot s) (fork s) (latest_block_header s) (block_roots s) (state_roots s) (historical_roots s) (eth1_data s) (eth1_data_votes s) (eth1_deposit_index s) (validators s) (balances s) (randao_mixes s) (slashings s) (previous_epoch_attestations s) (current_epoch_attestations s) (previous_epoch_participation s) (current_epoch_participation s) x (previous_justified_checkpoint s) (current_justified_checkpoint s) (finalized_checkpoint s) (inactivity_scores s) (current_sync_committee s) (next_sync_committee s) (latest_execution_payload_header s) (next_withdrawal_index s) (next_withdrawal_validator_index s) (historical_summaries s) (deposit_receipts_start_index s) (deposit_balance_to_consume s) (exit_balance_to_consume s) (earliest_exit_epoch s) (consolidation_balance_to_consume s) (earliest_consolidation_epoch s) (pending_balance_deposits s) (pending_partial_withdrawals s) (pending_consolidations s).
Lemma set_justification_bits_id s : set_justification_bits (justification_bits s) s = s. Proof. destruct s; reflexivity. Qed.
Definition set_previous_justified_checkpoint (x : Checkpoint) (s : BeaconState) : BeaconState :=
  mkState (genesis_time s) (genesis_validators_root s) (slot s) (fork s) (latest_block_header s) (block_roots s) (state_roots s) (historical_roots s) (eth1_data s) (eth1_data_votes s) (eth1_deposit_index s) (validators s) (balances s) (randao_mixes s) (slashings s) (previous_epoch_attestations s) (current_epoch_attestations s) (previous_epoch_participation s) (current_epoch_participation s) (justification_bits s) x (current_justified_checkpoint s) (finalized_checkpoint s) (inactivity_scores s) (current_sync_committee s) (next_sync_committee s) (latest_execution_payload_header s) (next_withdrawal_index s) (next_withdrawal_validator_index s) (historical_summaries s) (deposit_receipts_start_index s) (deposit_balance_to_consume s) (exit_balance_to_consume s) (earliest_exit_epoch s) (consolidation_balance_to_consume s) (earliest_consolidation_epoch s) (pending_balance_deposits s) (pending_partial_withdrawals s) (pending_consolidations s).
Lemma set_previous_justified_checkpoint_id s : set_previous_justified_checkpoint (previous_justified_checkpoint s) s = s. Proof. destruct s; reflexivity. Qed.
Definition set_current_justified_checkpoint (x : Checkpoint) (s : BeaconState) : BeaconState :=
  mkState (genesis_time s) (genesis_validators_root s) (slot s) (fork s) (latest_block_header s) (block_roots s) (state_roots s) (historical_roots s) (eth1_data s) (eth1_data_votes s) (eth1_deposit_index s) (validators s) (balances s) (randao_mixes s) (slashings s) (previous_epoch_attestations s) (current_epoch_attestations s) (previous_epoch_participation s) (current_epoch_participation s) (justification_bits s) (previous_justified_checkpoint s) x (finalized_checkpoint s) (inactivity_scores s) (current_sync_committee s) (next_sync_committee s) (latest_execution_payload_header s) (next_withdrawal_index s) (next_withdrawal_validator_index s) (historical_summaries s) (deposit_receipts_start_index s) (deposit_balance_to_consume s) (exit_balance_to_consume s) (earliest_exit_epoch s) (consolidation_balance_to_consume s) (earliest_consolidation_epoch s) (pending_balance_deposits s) (pending_partial_withdrawals s) (pending_consolidations s).
Lemma set_current_justified_checkpoint_id s : set_current_justified_checkpoint (current_justified_checkpoint s) s = s. Proof. destruct s; reflexivity. Qed.
Definition set_finalized_checkpoint (x : Checkpoint) (s : BeaconState) : BeaconState :=
  mkState (genesis_time s) (genesis_validators_root s) (slot s) (fork s) (latest_block_header s) (block_roots s) (state_roots s) (historical_roots s) (eth1_data s) (eth1_data_votes s) (eth1_deposit_index s) (validators s) (balances s) (randao_mixes s) (slashings s) (previous_epoch_attestations s) (current_epoch_attestations s) (previous_epoch_participation s) (current_epoch_participation s) (justification_bits s) (previous_justified_checkpoint s) (current_justified_checkpoint s) x (inactivity_scores s) (current_sync_committee s) (next_sync_committee s) (latest_execution_payload_header s) (next_withdrawal_index s) (next_withdrawal_validator_index s) (historical_summaries s) (deposit_receipts_start_index s) (deposit_balance_to_consume s) (exit_balance_to_consume s) (earliest_exit_epoch s) (consolidation_balance_to_consume s) (earliest_consolidation_epoch s) (pending_balance_deposits s) (pending_partial_withdrawals s) (pending_consolidations s).
Lemma set_finalized_checkpoint_id s : set_finalized_checkpoint (finalized_checkpoint s) s = s. Proof. destruct s; reflexivity. Qed.
Definition set_inactivity_scores (x : list N) (s : BeaconState) : BeaconState :=
  mkState (genesis_time s) (genesis_validators_root s) (slot s) (fork s) (latest_block_header s) (block_roots s) (state_roots s) (historical_roots s) (eth1_data s) (eth1_data_votes s) (eth1_deposit_index s) (validators s) (balances s) (randao_mixes s) (slashings s) (previous_epoch_attestations s) (current_epoch_attestations s) (previous_epoch_participation s) (current_epoch_participation s) (justification_bits s) (previous_justified_checkpoint s) (current_justified_checkpoint s) (finalized_checkpoint s) x (current_sync_committee s) (next_sync_committee s) (latest_execution_payload_header s) (next_withdrawal_index s) (next_withdrawal_validator_index s) (historical_summaries s) (deposit_receipts_start_index s) (deposit_balance_to_consume s) (exit_balance_to_consume s) (earliest_exit_epoch s) (consolidation_balance_to_consume s) (earliest_consolidation_epoch s) (pending_balance_deposits s) (pending_partial_withdrawals s) (pending_consolidations s).
Lemma set_inactivity_scores_id s : set_inactivity_scores (inactivity_scores s) s = s. Proof. destruct s; reflexivity. Qed.
Definition set_current_sync_committee (x : SyncCommittee) (s : BeaconState) : BeaconState :=
  mkState (genesis_time s) (genesis_validators_root s) (slot s) (fork s) (latest_block_header s) (block_roots s) (state_roots s) (historical_roots s) (eth1_data s) (eth1_data_votes s) (eth1_deposit_index s) (validators s) (balances s) (randao_mixes s) (slashings s) (previous_epoch_attestations s) (current_epoch_attestations s) (previous_epoch_participation s) (current_epoch_participation s) (justification_bits s) (previous_justified_checkpoint s) (current_justified_checkpoint s) (finalized_checkpoint s) (inactivity_scores s) x (next_sync_committee s) (latest_execution_payload_header s) (next_withdrawal_index s) (next_withdrawal_validator_index s) (historical_summaries s) (deposit_receipts_start_index s) (deposit_balance_to_consume s) (exit_balance_to_consume s) (earliest_exit_epoch s) (consolidation_balance_to_consume s) (earliest_consolidation_epoch s) (pending_balance_deposits s) (pending_partial_withdrawals s) (pending_consolidations s).
Lemma set_current_sync_committee_id s : set_current_sync_committee (current_sync_committee s) s = s. Proof. destruct s; reflexivity. Qed.
Definition set_next_sync_committee (x : SyncCommittee) (s : BeaconState) : BeaconState :=
  mkState (genesis_time s) (genesis_validators_root s) (slot s) (fork s) (latest_block_header s) (block_roots s) (state_roots s) (historical_roots s) (eth1_data s) (eth1_data_votes s) (eth1_deposit_index s) (validators s) (balances s) (randao_mixes s) (slashings s) (previous_epoch_attestations s) (current_epoch_attestations s) (previous_epoch_participation s) (current_epoch_participation s) (justification_bits s) (previous_justified_checkpoint s) (current_justified_checkpoint s) (finalized_checkpoint s) (inactivity_scores s) (current_sync_committee s) x (latest_execution_payload_header s) (next_withdrawal_index s) (next_withdrawal_validator_index s) (historical_summaries s) (deposit_receipts_start_index s) (deposit_balance_to_consume s) (exit_balance_to_consume s) (earliest_exit_epoch s) (consolidation_balance_to_consume s) (earliest_consolidation_epoch s) (pending_balance_deposits s) (pending_partial_withdrawals s) (pending_consolidations s).
Lemma set_next_sync_committee_id s : set_next_sync_committee (next_sync_committee s) s = s. Proof. destruct s; reflexivity. Qed.
Definition set_latest_execution_payload_header (x : ExecutionPayloadHeader) (s : BeaconState) : BeaconState :=
  mkState (genesis_time s) (genesis_validators_root s) (slot s) (fork s) (latest_block_header s) (block_roots s) (state_roots s) (historical_roots s) (eth1_data s) (eth1_data_votes s) (eth1_deposit_index s) (validators s) (balances s) (randao_mixes s) (slashings s) (previous_epoch_attestations s) (current_epoch_attestations s) (previous_epoch_participation s) (current_epoch_participation s) (justification_bits s) (previous_justified_checkpoint s) (current_justified_checkpoint s) (finalized_checkpoint s) (inactivity_scores s) (current_sync_committee s) (next_sync_committee s) x (next_withdrawal_index s) (next_withdrawal_validator_index s) (historical_summaries s) (deposit_receipts_start_index s) (deposit_balance_to_consume s) (exit_balance_to_consume s) (earliest_exit_epoch s) (consolidation_balance_to_consume s) (earliest_consolidation_epoch s) (pending_balance_deposits s) (pending_partial_withdrawals s) (pending_consolidations s).
Lemma set_latest_execution_payload_header_id s : set_latest_execution_payload_header (latest_execution_payload_header s) s = s. Proof. destruct s; reflexivity. Qed.
Definition set_next_withdrawal_index (x : N) (s : BeaconState) : BeaconState :=
  mkState (genesis_time s) (genesis_validators_root s) (slot s) (fork s) (latest_block_header s) (block_roots s) (state_roots s) (historical_roots s) (eth1_data s) (eth1_data_votes s) (eth1_deposit_index s) (validators s) (balances s) (randao_mixes s) (slashings s) (previous_epoch_attestations s) (current_epoch_attestations s) (previous_epoch_participation s) (current_epoch_participation s) (justification_bits s) (previous_justified_checkpoint s) (current_justified_checkpoint s) (finalized_checkpoint s) (inactivity_scores s) (current_sync_committee s) (next_sync_committee s) (latest_execution_payload_header s) x (next_withdrawal_validator_index s) (historical_summaries s) (deposit_receipts_start_index s) (deposit_balance_to_consume s) (exit_balance_to_consume s) (earliest_exit_epoch s) (consolidation_balance_to_consume s) (earliest_consolidation_epoch s) (pending_balance_deposits s) (pending_partial_withdrawals s) (pending_consolidations s).
Lemma set_next_withdrawal_index_id s : set_next_withdrawal_index (next_withdrawal_index s) s = s. Proof. destruct s; reflexivity. Qed.
Definition set_next_withdrawal_validator_index (x : N) (s : BeaconState) : BeaconState :=
  mkState (genesis_time s) (genesis_validators_root s) (slot s) (fork s) (latest_block_header s) (block_roots s) (state_roots s) (historical_roots s) (eth1_data s) (eth1_data_votes s) (eth1_deposit_index s) (validators s) (balances s) (randao_mixes s) (slashings s) (previous_epoch_attestations s) (current_epoch_attestations s) (previous_epoch_participation s) (current_epoch_participation s) (justification_bits s) (previous_justified_checkpoint s) (current_justified_checkpoint s) (finalized_checkpoint s) (inactivity_scores s) (current_sync_committee s) (next_sync_committee s) (latest_execution_payload_header s) (next_withdrawal_index s) x (historical_summaries s) (deposit_receipts_start_index s) (deposit_balance_to_consume s) (exit_balance_to_consume s) (earliest_exit_epoch s) (consolidation_balance_to_consume s) (earliest_consolidation_epoch s) (pending_balance_deposits s) (pending_partial_withdrawals s) (pending_consolidations s).
Lemma set_next_withdrawal_validator_index_id s : set_next_withdrawal_validator_index (next_withdrawal_validator_index s) s = s. Proof. destruct s; reflexivity. Qed.
Definition set_historical_summaries (x : list HistoricalSummary) (s : BeaconState) : BeaconState :=
  mkState (genesis_time s) (genesis_validators_root s) (slot s) (fork s) (latest_block_header s) (block_roots s) (state_roots s) (historical_roots s) (eth1_data s) (eth1_data_votes s) (eth1_deposit_index s) (validators s) (balances s) (randao_mixes s) (slashings s) (previous_epoch_attestations s) (current_epoch_attestations s) (previous_epoch_participation s) (current_epoch_participation s) (justification_bits s) (previous_justified_checkpoint s) (current_justified_checkpoint s) (finalized_checkpoint s) (inactivity_scores s) (current_sync_committee s) (next_sync_committee s) (latest_execution_payload_header s) (next_withdrawal_index s) (next_withdrawal_validator_index s) x (deposit_receipts_start_index s) (deposit_balance_to_consume s) (exit_balance_to_consume s) (earliest_exit_epoch s) (consolidation_balance_to_consume s) (earliest_consolidation_epoch s) (pending_balance_deposits s) (pending_partial_withdrawals s) (pending_consolidations s).
Lemma set_historical_summaries_id s : set_historical_summaries (historical_summaries s) s = s. Proof. destruct s; reflexivity. Qed.
Definition set_deposit_receipts_start_index (x : N) (s : BeaconState) : BeaconState :=
  mkState (genesis_time s) (genesis_validators_root s) (slot s) (fork s) (latest_block_header s) (block_roots s) (state_roots s) (historical_roots s) (eth1_data s) (eth1_data_votes s) (eth1_deposit_index s) (validators s) (balances s) (randao_mixes s) (slashings s) (previous_epoch_attestations s) (current_epoch_attestations s) (previous_epoch_participation s) (current_epoch_participation s) (justification_bits s) (previous_justified_checkpoint s) (current_justified_checkpoint s) (finalized_checkpoint s) (inactivity_scores s) (current_sync_committee s) (next_sync_committee s) (latest_execution_payload_header s) (next_withdrawal_index s) (next_withdrawal_validator_index s) (historical_summaries s) x (deposit_balance_to_consume s) (exit_balance_to_consume s) (earliest_exit_epoch s) (consolidation_balance_to_consume s) (earliest_consolidation_epoch s) (pending_balance_deposits s) (pending_partial_withdrawals s) (pending_consolidations s).
Lemma set_deposit_receipts_start_index_id s : set_deposit_receipts_start_index (deposit_receipts_start_index s) s = s. Proof. destruct s; reflexivity. Qed.
Definition set_deposit_balance_to_consume (x : N) (s : BeaconState) : BeaconState :=
  mkState (genesis_time s) (genesis_validators_root s) (slot s) (fork s) (latest_block_header s) (block_roots s) (state_roots s) (historical_roots s) (eth1_data s) (eth1_data_votes s) (eth1_deposit_index s) (validators s) (balances s) (randao_mixes s) (slashings s) (previous_epoch_attestations s) (current_epoch_attestations s) (previous_epoch_participation s) (current_epoch_participation s) (justification_bits s) (previous_justified_checkpoint s) (current_justified_checkpoint s) (finalized_checkpoint s) (inactivity_scores s) (current_sync_committee s) (next_sync_committee s) (latest_execution_payload_header s) (next_withdrawal_index s) (next_withdrawal_validator_index s) (historical_summaries s) (deposit_receipts_start_index s) x (exit_balance_to_consume s) (earliest_exit_epoch s) (consolidation_balance_to_consume s) (earliest_consolidation_epoch s) (pending_balance_deposits s) (pending_partial_withdrawals s) (pending_consolidations s).
Lemma set_deposit_balance_to_consume_id s : set_deposit_balance_to_consume (deposit_balance_to_consume s) s = s. Proof. destruct s; reflexivity. Qed.
Definition set_exit_balance_to_consume (x : N) (s : BeaconState) : BeaconState :=
  mkState (genesis_time s) (genesis_validators_root s) (slot s) (fork s) (latest_block_header s) (block_roots s) (state_roots s) (historical_roots s) (eth1_data s) (eth1_data_votes s) (eth1_deposit_index s) (validators s) (balances s) (randao_mixes s) (slashings s) (previous_epoch_attestations s) (current_epoch_attestations s) (previous_epoch_participation s) (current_epoch_participation s) (justification_bits s) (previous_justified_checkpoint s) (current_justified_checkpoint s) (finalized_checkpoint s) (inactivity_scores s) (current_sync_committee s) (next_sync_committee s) (latest_execution_payload_header s) (next_withdrawal_index s) (next_withdrawal_validator_index s) (historical_summaries s) (deposit_receipts_start_index s) (deposit_balance_to_consume s) x (earliest_exit_epoch s) (consolidation_balance_to_consume s) (earliest_consolidation_epoch s) (pending_balance_deposits s) (pending_partial_withdrawals s) (pending_consolidations s).
Lemma set_exit_balance_to_consume_id s : set_exit_balance_to_consume (exit_balance_to_consume s) s = s. Proof. destruct s; reflexivity. Qed.
Definition set_earliest_exit_epoch (x : N) (s : BeaconState) : BeaconState :=
  mkState (genesis_time s) (genesis_validators_root s) (slot s) (fork s) (latest_block_header s) (block_roots s) (state_roots s) (historical_roots s) (eth1_data s) (eth1_data_votes s) (eth1_deposit_index s) (validators s) (balances s) (randao_mixes s) (slashings s) (previous_epoch_attestations s) (current_epoch_attestations s) (previous_epoch_participation s) (current_epoch_participation s) (justification_bits s) (previous_justified_checkpoint s) (current_justified_checkpoint s) (finalized_checkpoint s) (inactivity_scores s) (current_sync_committee s) (next_sync_committee s) (latest_execution_payload_header s) (next_withdrawal_index s) (next_withdrawal_validator_index s) (historical_summaries s) (deposit_receipts_start_index s) (deposit_balance_to_consume s) (exit_balance_to_consume s) x (consolidation_balance_to_consume s) (earliest_consolidation_epoch s) (pending_balance_deposits s) (pending_partial_withdrawals s) (pending_consolidations s).
Lemma set_earliest_exit_epoch_id s : set_earliest_exit_epoch (earliest_exit_epoch s) s = s. Proof. destruct s; reflexivity. Qed.
Definition set_consolidation_balance_to_consume (x : N) (s : BeaconState) : BeaconState :=
  mkState (genesis_time s) (genesis_validators_root s) (slot s) (fork s) (latest_block_header s) (block_roots s) (state_roots s) (historical_roots s) (eth1_data s) (eth1_data_votes s) (eth1_deposit_index s) (validators s) (balances s) (randao_mixes s) (slashings s) (previous_epoch_attestations s) (current_epoch_attestations s) (previous_epoch_participation s) (current_epoch_participation s) (justification_bits s) (previous_justified_checkpoint s) (current_justified_checkpoint s) (finalized_checkpoint s) (inactivity_scores s) (current_sync_committee s) (next_sync_committee s) (latest_execution_payload_header s) (next_withdrawal_index s) (next_withdrawal_validator_index s) (historical_summaries s) (deposit_receipts_start_index s) (deposit_balance_to_consume s) (exit_balance_to_consume s) (earliest_exit_epoch s) x (earliest_consolidation_epoch s) (pending_balance_deposits s) (pending_partial_withdrawals s) (pending_consolidations s).
Lemma set_consolidation_balance_to_consume_id s : set_consolidation_balance_to_consume (consolidation_balance_to_consume s) s = s. Proof. destruct s; reflexivity. Qed.
Definition set_earliest_consolidation_epoch (x : N) (s : BeaconState) : BeaconState :=
  mkState (genesis_time s) (genesis_validators_root s) (slot s) (fork s) (latest_block_header s) (block_roots s) (state_roots s) (historical_roots s) (eth1_data s) (eth1_data_votes s) (eth1_deposit_index s) (validators s) (balances s) (randao_mixes s) (slashings s) (previous_epoch_attestations s) (current_epoch_attestations s) (previous_epoch_participation s) (current_epoch_participation s) (justification_bits s) (previous_justified_checkpoint s) (current_justified_checkpoint s) (finalized_checkpoint s) (inactivity_scores s) (current_sync_committee s) (next_sync_committee s) (latest_execution_payload_header s) (next_withdrawal_index s) (next_withdrawal_validator_index s) (historical_summaries s) (deposit_receipts_start_index s) (deposit_balance_to_consume s) (exit_balance_to_consume s) (earliest_exit_epoch s) (consolidation_balance_to_consume s) x (pending_balance_deposits s) (pending_partial_withdrawals s) (pending_consolidations s).
Lemma set_earliest_consolidation_epoch_id s : set_earliest_consolidation_epoch (earliest_consolidation_epoch s) s = s. Proof. destruct s; reflexivity. Qed.
Definition set_pending_balance_deposits (x : list PendingBalanceDeposit) (s : BeaconState) : BeaconState :=
  mkState (genesis_time s) (genesis_validators_root s) (slot s) (fork s) (latest_block_header s) (block_roots s) (state_roots s) (historical_roots s) (eth1_data s) (eth1_data_votes s) (eth1_deposit_index s) (validators s) (balances s) (randao_mixes s) (slashings s) (previous_epoch_attestations s) (current_epoch_attestations s) (previous_epoch_participation s) (current_epoch_participation s) (justification_bits s) (previous_justified_checkpoint s) (current_justified_checkpoint s) (finalized_checkpoint s) (inactivity_scores s) (current_sync_committee s) (next_sync_committee s) (latest_execution_payload_header s) (next_withdrawal_index s) (next_withdrawal_validator_index s) (historical_summaries s) (deposit_receipts_start_index s) (deposit_balance_to_consume s) (exit_balance_to_consume s) (earliest_exit_epoch s) (consolidation_balance_to_consume s) (earliest_consolidation_epoch s) x (pending_partial_withdrawals s) (pending_consolidations s).
Lemma set_pending_balance_deposits_id s : set_pending_balance_deposits (pending_balance_deposits s) s = s. Proof. destruct s; reflexivity. Qed.
Definition set_pending_partial_withdrawals (x : list PendingPartialWithdrawal) (s : BeaconState) : BeaconState :=
  mkState (genesis_time s) (genesis_validators_root s) (slot s) (fork s) (latest_block_header s) (block_roots s) (state_roots s) (historical_roots s) (eth1_data s) (eth1_data_votes s) (eth1_deposit_index s) (validators s) (balances s) (randao_mixes s) (slashings s) (previous_epoch_attestations s) (current_epoch_attestations s) (previous_epoch_participation s) (current_epoch_participation s) (justification_bits s) (previous_justified_checkpoint s) (current_justified_checkpoint s) (finalized_checkpoint s) (inactivity_scores s) (current_sync_committee s) (next_sync_committee s) (latest_execution_payload_header s) (next_withdrawal_index s) (next_withdrawal_validator_index s) (historical_summaries s) (deposit_receipts_start_index s) (deposit_balance_to_consume s) (exit_balance_to_consume s) (earliest_exit_epoch s) (consolidation_balance_to_consume s) (earliest_consolidation_epoch s) (pending_balance_deposits s) x (pending_consolidations s).
Lemma set_pending_partial_withdrawals_id s : set_pending_partial_withdrawals (pending_partial_withdrawals s) s = s. Proof. destruct s; reflexivity. Qed.
Definition set_pending_consolidations (x : list PendingConsolidation) (s : BeaconState) : BeaconState :=
  mkState (genesis_time s) (genesis_validators_root s) (slot s) (fork s) (latest_block_header s) (block_roots s) (state_roots s) (historical_roots s) (eth1_data s) (eth1_data_votes s) (eth1_deposit_index s) (validators s) (balances s) (randao_mixes s) (slashings s) (previous_epoch_attestations s) (current_epoch_attestations s) (previous_epoch_participation s) (current_epoch_participation s) (justification_bits s) (previous_justified_checkpoint s) (current_justified_checkpoint s) (finalized_checkpoint s) (inactivity_scores s) (current_sync_committee s) (next_sync_committee s) (latest_execution_payload_header s) (next_withdrawal_index s) (next_withdrawal_validator_index s) (historical_summaries s) (deposit_receipts_start_index s) (deposit_balance_to_consume s) (exit_balance_to_consume s) (earliest_exit_epoch s) (consolidation_balance_to_consume s) (earliest_consolidation_epoch s) (pending_balance_deposits s) (pending_partial_withdrawals s) x.
Lemma set_pending_consolidations_id s : set_pending_consolidations (pending_consolidations s) s = s. Proof. destruct s; reflexivity. Qed.

(** ** Simplification of [field (set_field' v s)] *)
Ltac gs1 :=
  match goal with
  | |- context [?p (?set ?v ?s)] =>
      is_const p; is_const set;
      let V := type of v in let S := type of s in
      let f := eval lazy beta iota delta [p set] in (fun (a : V) (b : S) => p (set a b)) in
      let g := eval lazy beta iota delta [p] in (fun (a : V) (b : S) => p b) in
      first [ constr_eq f (fun (a : V) (b : S) => a); change (p (set v s)) with v
            | constr_eq f g; change (p (set v s)) with (p s) ]
  | |- context [?set ?v (?set ?w ?s)] => is_const set; change (set v (set w s)) with (set v s)
  end.
Ltac gs1h H :=
  match type of H with
  | context [?p (?set ?v ?s)] =>
      is_const p; is_const set;
      let V := type of v in let S := type of s in
      let f := eval lazy beta iota delta [p set] in (fun (a : V) (b : S) => p (set a b)) in
      let g := eval lazy beta iota delta [p] in (fun (a : V) (b : S) => p b) in
      first [ constr_eq f (fun (a : V) (b : S) => a); change (p (set v s)) with v in H
            | constr_eq f g; change (p (set v s)) with (p s) in H ]
  | context [?set ?v (?set ?w ?s)] => is_const set; change (set v (set w s)) with (set v s) in H
  end.
Ltac gs := repeat gs1.
Ltac gsh H := repeat gs1h H.

Lemma eqb_dec_true {A} (d : forall a b : A, {a = b} + {a <> b}) a b :
  (if d a b then true else false) = true <-> a = b.
Proof. destruct (d a b); intuition congruence. Qed.
Lemma eqb_dec_false {A} (d : forall a b : A, {a = b} + {a <> b}) a b :
  (if d a b then true else false) = false <-> a <> b.
Proof. destruct (d a b); intuition congruence. Qed.
