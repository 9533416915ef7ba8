(** * Specification vocabulary: headers, RANDAO, eth1 votes, payloads and credential changes

    Only fields, comparisons, list operations, the oracles, and the signature predicates of SpecHelpers are used. *)
From Verif Require Import Base Types Ctx Env SpecCommon SpecHelpers.
From Coq Require Import Sorted.

(** ** Eth1 votes *)
Definition voting_period (c : Ctx) : N := EPOCHS_PER_ETH1_VOTING_PERIOD c * SLOTS_PER_EPOCH c.
(** number of votes for [d] *)
Definition votes_for (d : Eth1Data) (votes : list Eth1Data) : N := N.of_nat (count_occ Eth1Data_eq_dec votes d).
(** [d] has more than half of the votes a full period can hold *)
Definition has_majority (c : Ctx) (d : Eth1Data) (votes : list Eth1Data) : Prop := voting_period c < 2 * votes_for d votes.

(** ** RANDAO *)
Definition mix_position (E : Env) (s : BeaconState) : N := epoch_of E s mod EPOCHS_PER_HISTORICAL_VECTOR E.

(** ** Execution payloads *)
(** every field of a payload header is zero or empty *)
Definition header_unset (c : Ctx) (h : ExecutionPayloadHeader) : Prop :=
  eph_parent_hash h = repeat 0 32 /\ eph_fee_recipient h = repeat 0 20 /\ eph_state_root h = repeat 0 32
  /\ eph_receipts_root h = repeat 0 32 /\ eph_logs_bloom h = repeat 0 (N.to_nat (BYTES_PER_LOGS_BLOOM c)) /\ eph_prev_randao h = repeat 0 32
  /\ eph_block_number h = 0 /\ eph_gas_limit h = 0 /\ eph_gas_used h = 0 /\ eph_timestamp h = 0 /\ eph_extra_data h = []
  /\ eph_base_fee_per_gas h = 0 /\ eph_block_hash h = repeat 0 32 /\ eph_transactions_root h = repeat 0 32
  /\ eph_withdrawals_root h = repeat 0 32 /\ eph_blob_gas_used h = 0 /\ eph_excess_blob_gas h = 0
  /\ eph_deposit_receipts_root h = repeat 0 32 /\ eph_withdrawal_requests_root h = repeat 0 32.
Definition payload_unset (c : Ctx) (p : ExecutionPayload) : Prop :=
  ep_parent_hash p = repeat 0 32 /\ ep_fee_recipient p = repeat 0 20 /\ ep_state_root p = repeat 0 32
  /\ ep_receipts_root p = repeat 0 32 /\ ep_logs_bloom p = repeat 0 (N.to_nat (BYTES_PER_LOGS_BLOOM c)) /\ ep_prev_randao p = repeat 0 32
  /\ ep_block_number p = 0 /\ ep_gas_limit p = 0 /\ ep_gas_used p = 0 /\ ep_timestamp p = 0 /\ ep_extra_data p = []
  /\ ep_base_fee_per_gas p = 0 /\ ep_block_hash p = repeat 0 32 /\ ep_transactions p = []
  /\ ep_withdrawals p = [] /\ ep_blob_gas_used p = 0 /\ ep_excess_blob_gas p = 0
  /\ ep_deposit_receipts p = [] /\ ep_withdrawal_requests p = [].

Definition from_deneb (f : Fork) : Prop := f = Deneb \/ f = Electra.
Definition from_capella (f : Fork) : Prop := f = Capella \/ from_deneb f.

(** the versioned hash of a commitment: version byte 1, then bytes 1..31 of its hash *)
Definition is_versioned_hash (E : Env) (commitment vh : bytes) : Prop :=
  nthN vh 0 = Some 1 /\ lenN vh = lenN (hash E commitment) /\ forall i, 1 <= i -> nthN vh i = nthN (hash E commitment) i.
(** what the execution engine is asked: from deneb on with the versioned hashes, in order, and the parent root *)
Definition engine_accepts (E : Env) (f : Fork) (s : BeaconState) (b : BeaconBlockBody) : Prop :=
  exists hashes parent,
    (from_deneb f -> Forall2 (is_versioned_hash E) (bb_blob_kzg_commitments b) hashes /\ parent = bh_parent_root (latest_block_header s))
    /\ (~ from_deneb f -> hashes = [] /\ parent = [])
    /\ engine_ok E (mkPayloadRequest f (bb_execution_payload b) hashes parent) = true.

Definition payload_acceptable (E : Env) (f : Fork) (s : BeaconState) (b : BeaconBlockBody) : Prop :=
  let p := bb_execution_payload b in
  (from_capella f \/ ~ header_unset E (latest_execution_payload_header s) ->
     ep_parent_hash p = eph_block_hash (latest_execution_payload_header s))
  /\ nthN (randao_mixes s) (mix_position E s) = Some (ep_prev_randao p)
  /\ ep_timestamp p = genesis_time s + slot s * SECONDS_PER_SLOT E
  /\ (from_deneb f -> lenN (bb_blob_kzg_commitments b) <= MAX_BLOBS_PER_BLOCK E)
  /\ engine_accepts E f s b.
(** [h] is the header of payload [p] in fork [f] *)
Definition header_of_payload (E : Env) (f : Fork) (p : ExecutionPayload) (h : ExecutionPayloadHeader) : Prop :=
  eph_parent_hash h = ep_parent_hash p /\ eph_fee_recipient h = ep_fee_recipient p /\ eph_state_root h = ep_state_root p
  /\ eph_receipts_root h = ep_receipts_root p /\ eph_logs_bloom h = ep_logs_bloom p /\ eph_prev_randao h = ep_prev_randao p
  /\ eph_block_number h = ep_block_number p /\ eph_gas_limit h = ep_gas_limit p /\ eph_gas_used h = ep_gas_used p
  /\ eph_timestamp h = ep_timestamp p /\ eph_extra_data h = ep_extra_data p /\ eph_base_fee_per_gas h = ep_base_fee_per_gas p
  /\ eph_block_hash h = ep_block_hash p /\ htr E (OTransactions (ep_transactions p)) = Some (eph_transactions_root h)
  /\ (from_capella f -> htr E (OWithdrawals (ep_withdrawals p)) = Some (eph_withdrawals_root h))
  /\ (from_deneb f -> eph_blob_gas_used h = ep_blob_gas_used p /\ eph_excess_blob_gas h = ep_excess_blob_gas p)
  /\ (f = Electra -> htr E (ODepositReceipts (ep_deposit_receipts p)) = Some (eph_deposit_receipts_root h)
                     /\ htr E (OWithdrawalRequests (ep_withdrawal_requests p)) = Some (eph_withdrawal_requests_root h)).
(** every list of the payload can be merkleized *)
Definition payload_merkleizable (E : Env) (f : Fork) (p : ExecutionPayload) : Prop :=
  htr E (OTransactions (ep_transactions p)) <> None
  /\ (from_capella f -> htr E (OWithdrawals (ep_withdrawals p)) <> None)
  /\ (f = Electra -> htr E (ODepositReceipts (ep_deposit_receipts p)) <> None
                     /\ htr E (OWithdrawalRequests (ep_withdrawal_requests p)) <> None).

(** ** BLS to execution change *)
Definition bls_change_valid (E : Env) (s : BeaconState) (op : SignedBlsToExecutionChange) (v : Validator) : Prop :=
  let c := sbc_message op in
  nthN (validators s) (bc_validator_index c) = Some v
  /\ nthN (v_withdrawal_credentials v) 0 = Some 0
  /\ skipn 1 (v_withdrawal_credentials v) = skipn 1 (hash E (bc_from_bls_public_key c))
  /\ exists d root, is_domain E [10; 0; 0; 0] (GENESIS_FORK_VERSION E) (genesis_validators_root s) d
       /\ is_signing_root E (OBlsChange c) d root /\ bls_verify E (bc_from_bls_public_key c) root (sbc_signature op) = true.
(** credentials that pay to an execution address *)
Definition address_credentials (a : bytes) : bytes := 1 :: [0; 0; 0; 0; 0; 0; 0; 0; 0; 0; 0] ++ a.
