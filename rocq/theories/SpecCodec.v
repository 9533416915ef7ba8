(** * Specification for C93, C94: JSON text as the Ethereum beacon API prescribes it

    Every integer is a string of decimal digits, every byte string (and every bit vector and list) the string "0x" followed by hexadecimal digits, every
    boolean a JSON boolean, every list an array, every container an object with one member per field. *)
From Coq Require Import Ascii String.
From Verif Require Import Base SpecText JsonCodec.

(** how many elements a list, vector or byte string may have *)
Definition elements (K : string -> N) (z : Size) : N := match z with Lit n => n | Const c => K c end.
Definition permitted (K : string -> N) (l : Len) (n : N) : Prop :=
  match l with Exactly z => n = elements K z | AtMost z => n <= elements K z | AnyLen => True end.
(** the values a variable of the type can hold *)
Definition below (b : N) (v : val) : Prop := exists n, v = XNum n /\ n < b.
Fixpoint holds (K : string -> N) (bits_ok : Len -> bytes -> bool) (t : Ty) (v : val) {struct t} : Prop :=
  match t, v with
  | TNum b, _ => below b v
  | TText b, _ => below b v
  | TBool, XBool _ => True
  | THex l, XBytes b => Forall (fun x => x < 256) b /\ permitted K l (lenN b)
  | TBits l, XBytes b => Forall (fun x => x < 256) b /\ bits_ok l b = true
  | TTextSeq l b, XSeq vs => permitted K l (lenN vs) /\ Forall (below b) vs
  | TSeq l e, XSeq vs => permitted K l (lenN vs) /\ Forall (holds K bits_ok e) vs
  | TRec fs, XSeq vs =>
      (fix go (fs : list (string * Ty)) (vs : list val) : Prop :=
         match fs, vs with
         | [], [] => True
         | (_, t') :: fr, v' :: vr => holds K bits_ok t' v' /\ go fr vr
         | _, _ => False
         end) fs vs
  | _, _ => False
  end.

Fixpoint api_text (K : string -> N) (bits_ok : Len -> bytes -> bool) (t : Ty) (v : val) (j : jv) {struct t} : Prop :=
  match t, v, j with
  | TNum b, XNum n, VText u => n < b /\ dec_denotes u n
  | TText b, XNum n, VText u => n < b /\ dec_denotes u n
  | TBool, XBool a, VBool c => c = a
  | THex l, XBytes b, VText u => permitted K l (lenN b) /\ exists d, u = (codes "0x" ++ d)%list /\ hex_denotes d b
  | TBits l, XBytes b, VText u => bits_ok l b = true /\ exists d, u = (codes "0x" ++ d)%list /\ hex_denotes d b
  | TTextSeq l b, XSeq vs, VArr js => permitted K l (lenN vs)
      /\ Forall2 (fun v j => match v, j with XNum n, VText u => n < b /\ dec_denotes u n | _, _ => False end) vs js
  | TSeq l e, XSeq vs, VArr js => permitted K l (lenN vs) /\ Forall2 (api_text K bits_ok e) vs js
  | TRec fs, XSeq vs, VObj kvs =>
      NoDup (map fst kvs)
      /\ (fix go (fs : list (string * Ty)) (vs : list val) : Prop :=
            match fs, vs with
            | [], [] => True
            | (k, t') :: fr, v' :: vr => (exists x, In (k, x) kvs /\ api_text K bits_ok t' v' x) /\ go fr vr
            | _, _ => False
            end) fs vs
  | _, _, _ => False
  end.

(** the containers whose definition leaves some integer without its attribute *)
Definition exceptions : list string :=
  ["phase0_Eth1Block"; "altair_SyncAggregatorSelectionData";
   "altair_LightClientUpdate"; "altair_LightClientFinalityUpdate"; "altair_LightClientOptimisticUpdate";
   "capella_LightClientUpdate"; "capella_LightClientFinalityUpdate"; "capella_LightClientOptimisticUpdate";
   "deneb_LightClientUpdate"; "deneb_LightClientFinalityUpdate"; "deneb_LightClientOptimisticUpdate"]%string.

(** ** The members of each container, in order, as the consensus specifications and the beacon API list them *)
Definition words (s : string) : list string :=
  (fix go (s : string) (w : string) : list string :=
     match s with
     | EmptyString => match w with EmptyString => [] | _ => [w] end
     | String c r => if Ascii.eqb c " "%char then match w with EmptyString => go r EmptyString | _ => w :: go r EmptyString end
                     else go r (append w (String c EmptyString))
     end) s EmptyString.
Local Open Scope string_scope.
Definition at_forks (forks : list string) (name members : string) : list (string * list string) :=
  map (fun f => (f ++ "_" ++ name, words members)) forks.
Definition body_members : string := "randao_reveal eth1_data graffiti proposer_slashings attester_slashings attestations deposits voluntary_exits".
Definition payload_members : string :=
  "parent_hash fee_recipient state_root receipts_root logs_bloom prev_randao block_number gas_limit gas_used timestamp extra_data base_fee_per_gas block_hash".
Definition state_members : string :=
  "genesis_time genesis_validators_root slot fork latest_block_header block_roots state_roots historical_roots eth1_data eth1_data_votes eth1_deposit_index validators balances randao_mixes slashings".
Definition finality_members : string := " justification_bits previous_justified_checkpoint current_justified_checkpoint finalized_checkpoint".
Definition altair_members : string :=
  state_members ++ " previous_epoch_participation current_epoch_participation" ++ finality_members ++ " inactivity_scores current_sync_committee next_sync_committee".
Definition capella_members : string :=
  altair_members ++ " latest_execution_payload_header next_withdrawal_index next_withdrawal_validator_index historical_summaries".
Definition electra_members : string :=
  capella_members ++ " deposit_receipts_start_index deposit_balance_to_consume exit_balance_to_consume earliest_exit_epoch consolidation_balance_to_consume earliest_consolidation_epoch"
  ++ " pending_balance_deposits pending_partial_withdrawals pending_consolidations".
Definition members : list (string * list string) := (
  at_forks ["phase0"] "Fork" "previous_version current_version epoch"
  ++ at_forks ["phase0"] "ForkData" "current_version genesis_validators_root"
  ++ at_forks ["phase0"] "Checkpoint" "epoch root"
  ++ at_forks ["phase0"] "Validator" "pubkey withdrawal_credentials effective_balance slashed activation_eligibility_epoch activation_epoch exit_epoch withdrawable_epoch"
  ++ at_forks ["phase0"] "AttestationData" "slot index beacon_block_root source target"
  ++ at_forks ["phase0"; "electra"] "IndexedAttestation" "attesting_indices data signature"
  ++ at_forks ["phase0"] "PendingAttestation" "aggregation_bits data inclusion_delay proposer_index"
  ++ at_forks ["phase0"] "Eth1Data" "deposit_root deposit_count block_hash"
  ++ at_forks ["phase0"] "HistoricalBatch" "block_roots state_roots"
  ++ at_forks ["phase0"] "HistoricalSummary" "block_summary_root state_summary_root"
  ++ at_forks ["phase0"] "DepositMessage" "pubkey withdrawal_credentials amount"
  ++ at_forks ["phase0"] "DepositData" "pubkey withdrawal_credentials amount signature"
  ++ at_forks ["phase0"] "BeaconBlockHeader" "slot proposer_index parent_root state_root body_root"
  ++ at_forks ["phase0"] "SignedBeaconBlockHeader" "message signature"
  ++ at_forks ["phase0"] "ProposerSlashing" "signed_header_1 signed_header_2"
  ++ at_forks ["phase0"; "electra"] "AttesterSlashing" "attestation_1 attestation_2"
  ++ at_forks ["phase0"] "Attestation" "aggregation_bits data signature"
  ++ at_forks ["electra"] "Attestation" "aggregation_bits data committee_bits signature"
  ++ at_forks ["phase0"] "Deposit" "proof data"
  ++ at_forks ["phase0"] "VoluntaryExit" "epoch validator_index"
  ++ at_forks ["phase0"] "SignedVoluntaryExit" "message signature"
  ++ at_forks ["phase0"] "Eth1Block" "timestamp deposit_root deposit_count"
  ++ at_forks ["phase0"] "AggregateAndProof" "aggregator_index aggregate selection_proof"
  ++ at_forks ["phase0"] "SignedAggregateAndProof" "message signature"
  ++ at_forks ["phase0"] "MetaData" "seq_number attnets"
  ++ at_forks ["altair"] "MetaData" "seq_number attnets syncnets"
  ++ at_forks ["altair"] "SyncAggregate" "sync_committee_bits sync_committee_signature"
  ++ at_forks ["altair"] "SyncCommittee" "pubkeys aggregate_pubkey"
  ++ at_forks ["altair"] "SyncCommitteeMessage" "slot beacon_block_root validator_index signature"
  ++ at_forks ["altair"] "SyncCommitteeContribution" "slot beacon_block_root subcommittee_index aggregation_bits signature"
  ++ at_forks ["altair"] "ContributionAndProof" "aggregator_index contribution selection_proof"
  ++ at_forks ["altair"] "SignedContributionAndProof" "message signature"
  ++ at_forks ["altair"] "SyncAggregatorSelectionData" "slot subcommittee_index"
  ++ at_forks ["altair"] "LightClientHeader" "beacon"
  ++ at_forks ["capella"; "deneb"] "LightClientHeader" "beacon execution execution_branch"
  ++ at_forks ["altair"; "capella"; "deneb"] "LightClientBootstrap" "header current_sync_committee current_sync_committee_branch"
  ++ at_forks ["altair"; "capella"; "deneb"] "LightClientUpdate"
       "attested_header next_sync_committee next_sync_committee_branch finalized_header finality_branch sync_aggregate signature_slot"
  ++ at_forks ["altair"; "capella"; "deneb"] "LightClientFinalityUpdate" "attested_header finalized_header finality_branch sync_aggregate signature_slot"
  ++ at_forks ["altair"; "capella"; "deneb"] "LightClientOptimisticUpdate" "attested_header sync_aggregate signature_slot"
  ++ at_forks ["phase0"; "altair"; "bellatrix"; "capella"; "deneb"; "electra"] "BeaconBlock" "slot proposer_index parent_root state_root body"
  ++ at_forks ["phase0"; "altair"; "bellatrix"; "capella"; "deneb"; "electra"] "SignedBeaconBlock" "message signature"
  ++ at_forks ["bellatrix"; "capella"; "deneb"] "BlindedBeaconBlock" "slot proposer_index parent_root state_root body"
  ++ at_forks ["bellatrix"; "capella"; "deneb"] "SignedBlindedBeaconBlock" "message signature"
  ++ at_forks ["phase0"] "BeaconBlockBody" body_members
  ++ at_forks ["altair"] "BeaconBlockBody" (body_members ++ " sync_aggregate")
  ++ at_forks ["bellatrix"] "BeaconBlockBody" (body_members ++ " sync_aggregate execution_payload")
  ++ at_forks ["capella"] "BeaconBlockBody" (body_members ++ " sync_aggregate execution_payload bls_to_execution_changes")
  ++ at_forks ["deneb"] "BeaconBlockBody" (body_members ++ " sync_aggregate execution_payload bls_to_execution_changes blob_kzg_commitments")
  ++ at_forks ["electra"] "BeaconBlockBody" (body_members ++ " sync_aggregate execution_payload bls_to_execution_changes blob_kzg_commitments consolidations")
  ++ at_forks ["bellatrix"] "BlindedBeaconBlockBody" (body_members ++ " sync_aggregate execution_payload_header")
  ++ at_forks ["capella"] "BlindedBeaconBlockBody" (body_members ++ " sync_aggregate execution_payload_header bls_to_execution_changes")
  ++ at_forks ["deneb"] "BlindedBeaconBlockBody" (body_members ++ " sync_aggregate execution_payload_header bls_to_execution_changes blob_kzg_commitments")
  ++ at_forks ["bellatrix"] "ExecutionPayload" (payload_members ++ " transactions")
  ++ at_forks ["capella"] "ExecutionPayload" (payload_members ++ " transactions withdrawals")
  ++ at_forks ["deneb"] "ExecutionPayload" (payload_members ++ " transactions withdrawals blob_gas_used excess_blob_gas")
  ++ at_forks ["electra"] "ExecutionPayload" (payload_members ++ " transactions withdrawals blob_gas_used excess_blob_gas deposit_receipts withdrawal_requests")
  ++ at_forks ["bellatrix"] "ExecutionPayloadHeader" (payload_members ++ " transactions_root")
  ++ at_forks ["capella"] "ExecutionPayloadHeader" (payload_members ++ " transactions_root withdrawals_root")
  ++ at_forks ["deneb"] "ExecutionPayloadHeader" (payload_members ++ " transactions_root withdrawals_root blob_gas_used excess_blob_gas")
  ++ at_forks ["electra"] "ExecutionPayloadHeader"
       (payload_members ++ " transactions_root withdrawals_root blob_gas_used excess_blob_gas deposit_receipts_root withdrawal_requests_root")
  ++ at_forks ["phase0"] "BeaconState" (state_members ++ " previous_epoch_attestations current_epoch_attestations" ++ finality_members)
  ++ at_forks ["altair"] "BeaconState" altair_members
  ++ at_forks ["bellatrix"] "BeaconState" (altair_members ++ " latest_execution_payload_header")
  ++ at_forks ["capella"; "deneb"] "BeaconState" capella_members
  ++ at_forks ["electra"] "BeaconState" electra_members
  ++ at_forks ["bellatrix"] "PowBlock" "block_hash parent_hash total_difficulty"
  ++ at_forks ["builder"] "ValidatorRegistration" "fee_recipient gas_limit timestamp pubkey"
  ++ at_forks ["builder"] "SignedValidatorRegistration" "message signature"
  ++ at_forks ["capella"] "Withdrawal" "index validator_index address amount"
  ++ at_forks ["capella"] "BlsToExecutionChange" "validator_index from_bls_pubkey to_execution_address"
  ++ at_forks ["capella"] "SignedBlsToExecutionChange" "message signature"
  ++ at_forks ["deneb"] "BlobIdentifier" "block_root index"
  ++ at_forks ["deneb"] "BlobsBundle" "commitments proofs blobs"
  ++ at_forks ["deneb"] "BlobSidecar" "index blob kzg_commitment kzg_proof signed_block_header kzg_commitment_inclusion_proof"
  ++ at_forks ["electra"] "DepositReceipt" "pubkey withdrawal_credentials amount signature index"
  ++ at_forks ["electra"] "ExecutionLayerWithdrawalRequest" "source_address validator_pubkey amount"
  ++ at_forks ["electra"] "Consolidation" "source_index target_index epoch"
  ++ at_forks ["electra"] "SignedConsolidation" "message signature"
  ++ at_forks ["electra"] "PendingBalanceDeposit" "index amount"
  ++ at_forks ["electra"] "PendingPartialWithdrawal" "index amount withdrawable_epoch"
  ++ at_forks ["electra"] "PendingConsolidation" "source_index target_index"
  ++ at_forks ["primitives"] "Coordinate" "slot root"
  ++ at_forks ["api_types"] "DepositContract" "chain_id address"
  ++ at_forks ["api_types"] "DepositSnapshot" "finalized deposit_root deposit_count execution_block_hash execution_block_height"
  ++ at_forks ["api_types"] "GenesisDetails" "genesis_time genesis_validators_root genesis_fork_version"
  ++ at_forks ["api_types"] "RootData" "root"
  ++ at_forks ["api_types"] "FinalityCheckpoints" "previous_justified current_justified finalized"
  ++ at_forks ["api_types"] "BalanceSummary" "index balance"
  ++ at_forks ["api_types"] "BeaconHeaderSummary" "root canonical header"
  ++ at_forks ["api_types"] "PeerSummary" "disconnected connecting connected disconnecting"
  ++ at_forks ["api_types"] "SyncStatus" "head_slot sync_distance is_syncing"
  ++ at_forks ["api_types"] "AttestationDuty" "pubkey validator_index committee_index committee_length committees_at_slot validator_committee_index slot"
  ++ at_forks ["api_types"] "ProposerDuty" "pubkey validator_index slot"
  ++ at_forks ["api_types"] "SyncCommitteeDuty" "pubkey validator_index validator_sync_committee_indices"
  ++ at_forks ["api_types"] "CommitteeDescriptor" "validator_index committee_index committees_at_slot slot is_aggregator"
  ++ at_forks ["api_types"] "SyncCommitteeDescriptor" "validator_index sync_committee_indices until_epoch"
  ++ at_forks ["api_types"] "BeaconProposerRegistration" "validator_index fee_recipient"
  ++ at_forks ["api_types"] "ValidatorLiveness" "index is_live")%list.
