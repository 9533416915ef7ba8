(** * Specification: the order of processing

    Only names of steps and the lists of operations of a block; no model function is used here. *)
From Verif Require Import Base Types Ctx Env.

Inductive EpochStep : Type :=
| SJustification | SInactivity | SRewards | SRegistry | SSlashings | SEth1Votes | SPendingDeposits | SPendingConsolidations
| SEffectiveBalances | SSlashingsReset | SRandaoReset | SHistorical | SParticipationRecords | SParticipationFlags | SSyncCommittees.
Definition epoch_steps (f : Fork) : list EpochStep :=
  match f with
  | Phase0 => [SJustification; SRewards; SRegistry; SSlashings; SEth1Votes; SEffectiveBalances; SSlashingsReset; SRandaoReset; SHistorical; SParticipationRecords]
  | Altair | Bellatrix | Capella | Deneb =>
    [SJustification; SInactivity; SRewards; SRegistry; SSlashings; SEth1Votes; SEffectiveBalances; SSlashingsReset; SRandaoReset; SHistorical; SParticipationFlags; SSyncCommittees]
  | Electra =>
    [SJustification; SInactivity; SRewards; SRegistry; SSlashings; SEth1Votes; SPendingDeposits; SPendingConsolidations; SEffectiveBalances; SSlashingsReset;
     SRandaoReset; SHistorical; SParticipationFlags; SSyncCommittees]
  end.

(** the operations of a block, one by one *)
Inductive Operation : Type :=
| OpProposerSlashing (x : ProposerSlashing) | OpAttesterSlashing (x : AttesterSlashing) | OpAttestation (x : Attestation) | OpDeposit (x : Deposit)
| OpExit (x : SignedVoluntaryExit) | OpBlsChange (x : SignedBlsToExecutionChange) | OpWithdrawalRequest (x : ExecutionLayerWithdrawalRequest)
| OpDepositReceipt (x : DepositReceipt) | OpConsolidation (x : SignedConsolidation).
Definition block_operations (f : Fork) (b : BeaconBlockBody) : list Operation :=
  map OpProposerSlashing (bb_proposer_slashings b) ++ map OpAttesterSlashing (bb_attester_slashings b) ++ map OpAttestation (bb_attestations b)
  ++ map OpDeposit (bb_deposits b) ++ map OpExit (bb_voluntary_exits b)
  ++ (match f with Capella | Deneb | Electra => map OpBlsChange (bb_bls_to_execution_changes b) | _ => [] end)
  ++ (match f with
      | Electra => map OpWithdrawalRequest (ep_withdrawal_requests (bb_execution_payload b)) ++ map OpDepositReceipt (ep_deposit_receipts (bb_execution_payload b))
                   ++ map OpConsolidation (bb_consolidations b)
      | _ => []
      end).

Inductive BlockStep : Type :=
| BHeader | BWithdrawals | BPayloadIfEnabled | BPayload | BRandao | BEth1Vote | BDepositCount | BOperation (o : Operation) | BSyncAggregate.
Definition block_steps (f : Fork) (b : BeaconBlockBody) : list BlockStep :=
  [BHeader] ++ (match f with Phase0 | Altair => [] | Bellatrix => [BPayloadIfEnabled] | _ => [BWithdrawals; BPayload] end)
  ++ [BRandao; BEth1Vote; BDepositCount] ++ map BOperation (block_operations f b) ++ (match f with Phase0 => [] | _ => [BSyncAggregate] end).

(** running steps one after the other: each starts from the state the previous one left, the first failure is the result *)
Fixpoint run_steps {S X} (perform : X -> S -> res unit * S) (l : list X) (s : S) : res unit * S :=
  match l with
  | [] => (Ok tt, s)
  | x :: t => match perform x s with (Ok _, s1) => run_steps perform t s1 | (r, s1) => (r, s1) end
  end.
