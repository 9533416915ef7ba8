#!/usr/bin/env python3
"""Generates theories/Types.v: the records of the model, their setters and boolean equalities.
The list below is the single source; the generated file is committed."""
import sys

# (record, constructor, citation, [(field, type)], wants_eqb, wants_setters)
R = []
def rec(name, mk, cite, fields, eqb=False, setters=False):
    R.append((name, mk, cite, [f.split(':') for f in fields.split()], eqb, setters))

rec('Checkpoint', 'mkCheckpoint', 'phase0/operations.rs:13-17', 'cp_epoch:N cp_root:Root', eqb=True)
rec('AttestationData', 'mkAttData', 'phase0/operations.rs:22-30',
    'ad_slot:N ad_index:N ad_beacon_block_root:Root ad_source:Checkpoint ad_target:Checkpoint', eqb=True)
rec('IndexedAttestation', 'mkIndexed', 'phase0/operations.rs:35-40; electra/operations.rs:18-23',
    'ia_attesting_indices:(list~N) ia_data:AttestationData ia_signature:bytes')
rec('PendingAttestation', 'mkPending', 'phase0/operations.rs:45-52',
    'pa_aggregation_bits:(list~bool) pa_data:AttestationData pa_inclusion_delay:N pa_proposer_index:N')
rec('Attestation', 'mkAtt', 'phase0/operations.rs:57-61; electra/operations.rs:28-33 (the [committee_bits] field exists only in electra)',
    'at_aggregation_bits:(list~bool) at_data:AttestationData at_committee_bits:(list~bool) at_signature:bytes')
rec('Eth1Data', 'mkEth1', 'phase0/operations.rs:66-71', 'e1_deposit_root:Root e1_deposit_count:N e1_block_hash:bytes', eqb=True)
rec('DepositMessage', 'mkDepMsg', 'phase0/operations.rs:74-80', 'dm_public_key:bytes dm_withdrawal_credentials:bytes dm_amount:N')
rec('DepositData', 'mkDepData', 'phase0/operations.rs:85-92', 'dd_public_key:bytes dd_withdrawal_credentials:bytes dd_amount:N dd_signature:bytes')
rec('Deposit', 'mkDeposit', 'phase0/operations.rs:119-122', 'dep_proof:(list~bytes) dep_data:DepositData')
rec('BeaconBlockHeader', 'mkHeader', 'phase0/beacon_block.rs:83-91',
    'bh_slot:N bh_proposer_index:N bh_parent_root:Root bh_state_root:Root bh_body_root:Root', eqb=True)
rec('SignedBeaconBlockHeader', 'mkSignedHeader', 'phase0/beacon_block.rs:96-99', 'sbh_message:BeaconBlockHeader sbh_signature:bytes')
rec('ProposerSlashing', 'mkPSlash', 'phase0/operations.rs:97-100', 'ps_1:SignedBeaconBlockHeader ps_2:SignedBeaconBlockHeader')
rec('AttesterSlashing', 'mkASlash', 'phase0/operations.rs:105-108', 'as_1:IndexedAttestation as_2:IndexedAttestation')
rec('VoluntaryExit', 'mkExit', 'phase0/operations.rs:127-132', 've_epoch:N ve_validator_index:N')
rec('SignedVoluntaryExit', 'mkSignedExit', 'phase0/operations.rs:137-140', 'sve_message:VoluntaryExit sve_signature:bytes')
rec('Validator', 'mkValidator', 'phase0/validator.rs:10-26',
    'v_public_key:bytes v_withdrawal_credentials:bytes v_effective_balance:N v_slashed:bool v_activation_eligibility_epoch:N v_activation_epoch:N v_exit_epoch:N v_withdrawable_epoch:N',
    setters=True)
rec('ForkRec', 'mkForkRec', 'phase0/beacon_state.rs:15-22', 'fk_previous_version:bytes fk_current_version:bytes fk_epoch:N')
rec('SyncAggregate', 'mkSyncAgg', 'altair/sync.rs:9-12', 'sa_bits:(list~bool) sa_signature:bytes')
rec('SyncCommittee', 'mkSyncCom', 'altair/sync.rs:17-22', 'sc_public_keys:(list~bytes) sc_aggregate_public_key:bytes')
rec('Withdrawal', 'mkWithdrawal', 'capella/withdrawal.rs:9-17', 'w_index:N w_validator_index:N w_address:bytes w_amount:N', eqb=True)
rec('BlsToExecutionChange', 'mkBlsChange', 'capella/bls_to_execution_change.rs:9-15', 'bc_validator_index:N bc_from_bls_public_key:bytes bc_to_execution_address:bytes')
rec('SignedBlsToExecutionChange', 'mkSignedBlsChange', 'capella/bls_to_execution_change.rs:20-23', 'sbc_message:BlsToExecutionChange sbc_signature:bytes')
rec('HistoricalSummary', 'mkHistSum', 'phase0/beacon_state.rs:42-45', 'hs_block_summary_root:Root hs_state_summary_root:Root')
rec('DepositReceipt', 'mkReceipt', 'electra/beacon_state.rs:16-25', 'dr_public_key:bytes dr_withdrawal_credentials:bytes dr_amount:N dr_signature:bytes dr_index:N')
rec('PendingBalanceDeposit', 'mkPBD', 'electra/beacon_state.rs:30-35', 'pbd_index:N pbd_amount:N')
rec('PendingPartialWithdrawal', 'mkPPW', 'electra/beacon_state.rs:40-47', 'ppw_index:N ppw_amount:N ppw_withdrawable_epoch:N')
rec('ExecutionLayerWithdrawalRequest', 'mkELW', 'electra/beacon_state.rs:62-68', 'elw_source_address:bytes elw_validator_public_key:bytes elw_amount:N')
rec('PendingConsolidation', 'mkPC', 'electra/beacon_state.rs:52-57', 'pc_source_index:N pc_target_index:N')
rec('Consolidation', 'mkConsolidation', 'electra/operations.rs:38-45', 'cn_source_index:N cn_target_index:N cn_epoch:N')
rec('SignedConsolidation', 'mkSignedConsolidation', 'electra/operations.rs:50-53', 'scn_message:Consolidation scn_signature:bytes')
rec('ExecutionPayload', 'mkPayload', 'electra/execution_payload.rs:13-49 (superset; withdrawals from capella on, blob gas from deneb on, receipts and requests only in electra)',
    'ep_parent_hash:bytes ep_fee_recipient:bytes ep_state_root:bytes ep_receipts_root:bytes ep_logs_bloom:bytes ep_prev_randao:bytes ep_block_number:N ep_gas_limit:N ep_gas_used:N ep_timestamp:N ep_extra_data:bytes ep_base_fee_per_gas:N ep_block_hash:bytes ep_transactions:(list~bytes) ep_withdrawals:(list~Withdrawal) ep_blob_gas_used:N ep_excess_blob_gas:N ep_deposit_receipts:(list~DepositReceipt) ep_withdrawal_requests:(list~ExecutionLayerWithdrawalRequest)')
rec('ExecutionPayloadHeader', 'mkPayloadHeader', 'electra/execution_payload.rs:54-84 (superset)',
    'eph_parent_hash:bytes eph_fee_recipient:bytes eph_state_root:bytes eph_receipts_root:bytes eph_logs_bloom:bytes eph_prev_randao:bytes eph_block_number:N eph_gas_limit:N eph_gas_used:N eph_timestamp:N eph_extra_data:bytes eph_base_fee_per_gas:N eph_block_hash:bytes eph_transactions_root:Root eph_withdrawals_root:Root eph_blob_gas_used:N eph_excess_blob_gas:N eph_deposit_receipts_root:Root eph_withdrawal_requests_root:Root', eqb=True)
rec('BeaconBlockBody', 'mkBody', 'electra/beacon_block.rs:17-59 (superset of all forks)',
    'bb_randao_reveal:bytes bb_eth1_data:Eth1Data bb_graffiti:bytes bb_proposer_slashings:(list~ProposerSlashing) bb_attester_slashings:(list~AttesterSlashing) bb_attestations:(list~Attestation) bb_deposits:(list~Deposit) bb_voluntary_exits:(list~SignedVoluntaryExit) bb_sync_aggregate:SyncAggregate bb_execution_payload:ExecutionPayload bb_bls_to_execution_changes:(list~SignedBlsToExecutionChange) bb_blob_kzg_commitments:(list~bytes) bb_consolidations:(list~SignedConsolidation)')
rec('BeaconBlock', 'mkBlock', 'electra/beacon_block.rs:64-110', 'bk_slot:N bk_proposer_index:N bk_parent_root:Root bk_state_root:Root bk_body:BeaconBlockBody')
rec('SignedBeaconBlock', 'mkSignedBlock', 'electra/beacon_block.rs:115-156', 'sb_message:BeaconBlock sb_signature:bytes')
rec('BeaconState', 'mkState', 'phase0/beacon_state.rs:50-88, altair/beacon_state.rs:13-55, bellatrix/beacon_state.rs:13-59, capella/beacon_state.rs:13-64, electra/beacon_state.rs:73-143 (union of the fields of all forks)',
    'genesis_time:N genesis_validators_root:Root slot:N fork:ForkRec latest_block_header:BeaconBlockHeader block_roots:(list~Root) state_roots:(list~Root) historical_roots:(list~Root) eth1_data:Eth1Data eth1_data_votes:(list~Eth1Data) eth1_deposit_index:N validators:(list~Validator) balances:(list~N) randao_mixes:(list~bytes) slashings:(list~N) previous_epoch_attestations:(list~PendingAttestation) current_epoch_attestations:(list~PendingAttestation) previous_epoch_participation:(list~N) current_epoch_participation:(list~N) justification_bits:(list~bool) previous_justified_checkpoint:Checkpoint current_justified_checkpoint:Checkpoint finalized_checkpoint:Checkpoint inactivity_scores:(list~N) current_sync_committee:SyncCommittee next_sync_committee:SyncCommittee latest_execution_payload_header:ExecutionPayloadHeader next_withdrawal_index:N next_withdrawal_validator_index:N historical_summaries:(list~HistoricalSummary) deposit_receipts_start_index:N deposit_balance_to_consume:N exit_balance_to_consume:N earliest_exit_epoch:N consolidation_balance_to_consume:N earliest_consolidation_epoch:N pending_balance_deposits:(list~PendingBalanceDeposit) pending_partial_withdrawals:(list~PendingPartialWithdrawal) pending_consolidations:(list~PendingConsolidation)',
    setters=True)

out = []
w = out.append
w('''(** * Types: containers of the repository as records.   GENERATED by tools/gen_types.py

    Simplifications: [u64]/[usize] are [N]; fixed-size byte vectors, BLS keys and signatures are byte
    lists; SSZ [List]/[Vector]/[Bitlist]/[Bitvector] are plain lists (their capacity bounds are only checked by
    hashing, see [htr] in Env.v).  Containers whose shape differs between forks are modelled by the union of the
    fields; a function of a fork only touches the fields its fork has. *)
From Verif Require Import Base.

Inductive Fork : Type := Phase0 | Altair | Bellatrix | Capella | Deneb | Electra. (* fork.rs:6-13 *)
Definition Fork_eq_dec : forall a b : Fork, {a = b} + {a <> b}.
Proof. decide equality. Defined.
Definition Fork_eqb (a b : Fork) : bool := if Fork_eq_dec a b then true else false.
Definition fork_num (f : Fork) : N :=
  match f with Phase0 => 0 | Altair => 1 | Bellatrix => 2 | Capella => 3 | Deneb => 4 | Electra => 5 end.
Definition fork_le (a b : Fork) : bool := fork_num a <=? fork_num b.

Definition bytes_eq_dec : forall a b : bytes, {a = b} + {a <> b} := list_eq_dec N.eq_dec.
''')
for name, mk, cite, fields, eqb, setters in R:
    fs = [(f, t.replace('~', ' ').strip('()')) for f, t in fields]
    w(f'(** {cite} *)')
    w(f'Record {name} : Type := {mk} {{')
    w(';\n'.join(f'  {f} : {t}' for f, t in fs) + ' }.')
    if eqb:
        w(f'Definition {name}_eq_dec : forall a b : {name}, {{a = b}} + {{a <> b}}.')
        w('Proof. decide equality; auto using N.eq_dec, bytes_eq_dec, Bool.bool_dec' +
          (', Checkpoint_eq_dec' if name == 'AttestationData' else '') + '. Defined.')
        w(f'Definition {name}_eqb (a b : {name}) : bool := if {name}_eq_dec a b then true else false.')
    if setters:
        for i, (f, t) in enumerate(fs):
            args = ' '.join('x' if j == i else f'({g} s)' for j, (g, _) in enumerate(fs))
            w(f'Definition set_{f} (x : {t}) (s : {name}) : {name} :=\n  {mk} {args}.')
            w(f'Lemma set_{f}_id s : set_{f} ({f} s) s = s. Proof. destruct s; reflexivity. Qed.')
    w('')
w('''(** ** Simplification of [field (set_field' v s)] *)
Ltac gs1 :=
  match goal with
  | |- context [?p (?set ?v ?s)] =>
      is_const p; is_const set;
      let V := type of v in let S := type of s in
      let f := eval lazy beta iota delta [p set] in (fun (a : V) (b : S) => p (set a b)) in
      let g := eval lazy beta iota delta [p] in (fun (a : V) (b : S) => p b) in
      first [ constr_eq f (fun (a : V) (b : S) => a); change (p (set v s)) with v
            | constr_eq f g; change (p (set v s)) with (p s) ]
  | |- context [?set ?v (?set ?w ?s)] => is_const set; change (set v (set w s)) with (set v s)
  end.
Ltac gs1h H :=
  match type of H with
  | context [?p (?set ?v ?s)] =>
      is_const p; is_const set;
      let V := type of v in let S := type of s in
      let f := eval lazy beta iota delta [p set] in (fun (a : V) (b : S) => p (set a b)) in
      let g := eval lazy beta iota delta [p] in (fun (a : V) (b : S) => p b) in
      first [ constr_eq f (fun (a : V) (b : S) => a); change (p (set v s)) with v in H
            | constr_eq f g; change (p (set v s)) with (p s) in H ]
  | context [?set ?v (?set ?w ?s)] => is_const set; change (set v (set w s)) with (set v s) in H
  end.
Ltac gs := repeat gs1.
Ltac gsh H := repeat gs1h H.

Lemma eqb_dec_true {A} (d : forall a b : A, {a = b} + {a <> b}) a b :
  (if d a b then true else false) = true <-> a = b.
Proof. destruct (d a b); intuition congruence. Qed.
Lemma eqb_dec_false {A} (d : forall a b : A, {a = b} + {a <> b}) a b :
  (if d a b then true else false) = false <-> a <> b.
Proof. destruct (d a b); intuition congruence. Qed.
''')
open(sys.argv[1], 'w').write('\n'.join(out))
