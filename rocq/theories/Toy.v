(** * A small concrete environment and states, used only by the examples that show hypotheses are satisfiable *)
From Verif Require Import Base Types Ctx Presets Env SpecCommon SpecShuffle BaseLemmas.

(** a toy hash: 32 bytes that depend on all input bytes (kept cheap: the examples are re-run by the kernel checker) *)
Definition toy_mix (acc x : N) : N := (acc * 37 + x * 11 + 5) mod 65521.
Definition toy_hash (b : bytes) : bytes :=
  let h := fold_left toy_mix b 4321 in
  map (fun k => (h * (k + 3) + h / (k + 2) + k) mod 251)
    [0;1;2;3;4;5;6;7;8;9;10;11;12;13;14;15;16;17;18;19;20;21;22;23;24;25;26;27;28;29;30;31].
Definition toy_checkpoint (c : Checkpoint) : bytes := to_le 8 (cp_epoch c) ++ cp_root c.
(** a toy Merkleization *)
Definition toy_htr (o : SszObj) : option Root :=
  Some match o with
  | OU64 x => to_le 32 x
  | OBytes32 b => b
  | OForkData v g => toy_hash (1 :: v ++ g)
  | OSigningData r d => toy_hash (2 :: r ++ d)
  | OHeader h => toy_hash (3 :: to_le 8 (bh_slot h) ++ to_le 8 (bh_proposer_index h) ++ bh_parent_root h ++ bh_state_root h ++ bh_body_root h)
  | OAttestationData d => toy_hash (4 :: to_le 8 (ad_slot d) ++ to_le 8 (ad_index d) ++ ad_beacon_block_root d
                            ++ toy_checkpoint (ad_source d) ++ toy_checkpoint (ad_target d))
  | OVoluntaryExit e => toy_hash (5 :: to_le 8 (ve_epoch e) ++ to_le 8 (ve_validator_index e))
  | ODepositMessage m => toy_hash (6 :: dm_public_key m ++ dm_withdrawal_credentials m ++ to_le 8 (dm_amount m))
  | ODepositData d => toy_hash (7 :: dd_public_key d ++ dd_withdrawal_credentials d ++ to_le 8 (dd_amount d) ++ dd_signature d)
  | ODepositDataList l => toy_hash (8 :: flat_map dd_public_key l)
  | OBlock _ b => toy_hash (9 :: to_le 8 (bk_slot b) ++ to_le 8 (bk_proposer_index b) ++ bk_parent_root b ++ bk_state_root b)
  | OBody _ b => toy_hash (10 :: bb_randao_reveal b)
  | OState _ s => toy_hash (11 :: to_le 8 (slot s) ++ flat_map (to_le 8) (balances s))
  | OValidators l => toy_hash (12 :: flat_map v_public_key l)
  | OHistoricalSummary h => toy_hash (13 :: hs_block_summary_root h ++ hs_state_summary_root h)
  | ORoots l => toy_hash (14 :: concat l)
  | OTransactions l => toy_hash (15 :: concat l)
  | OWithdrawals l => toy_hash (16 :: flat_map (fun w => to_le 8 (w_amount w)) l)
  | ODepositReceipts l => toy_hash (17 :: flat_map dr_public_key l)
  | OWithdrawalRequests l => toy_hash (18 :: flat_map elw_validator_public_key l)
  | OBlsChange c => toy_hash (19 :: to_le 8 (bc_validator_index c) ++ bc_from_bls_public_key c ++ bc_to_execution_address c)
  | OConsolidation c => toy_hash (20 :: to_le 8 (cn_source_index c) ++ to_le 8 (cn_target_index c))
  | OSyncAggregatorSelectionData s i => toy_hash (21 :: to_le 8 s ++ to_le 8 i)
  end.
(** a toy signature scheme: the signature of [pk] on [msg] *)
Definition toy_sign (pk msg : bytes) : bytes := toy_hash (100 :: pk ++ msg).
Definition toy_orc : Oracles := {|
  hash := toy_hash;
  htr := toy_htr;
  bls_verify := fun pk msg sig => bytes_eqb sig (toy_sign pk msg);
  fast_aggregate_verify_ok := fun pks msg sig => bytes_eqb sig (toy_sign (concat pks) msg);
  aggregate_pks := fun pks => Some (toy_hash (concat pks));
  merkle_branch_ok := fun leaf branch depth index root => bytes_eqb root (toy_hash (leaf ++ concat branch ++ to_le 8 index));
  engine_ok := fun r => N.even (ep_gas_used (pr_payload r))
|}.
Definition toy : Env := mkEnv ctx_minimal toy_orc true false 1000%nat.
Definition toy_fast : Env := mkEnv ctx_minimal toy_orc true true 1000%nat.
Definition toy_release : Env := mkEnv ctx_minimal toy_orc false false 1000%nat.

Lemma toy_hash_wf : hash_wf toy_hash.
Proof.
  intros b. split; [reflexivity|]. unfold toy_hash. apply Forall_forall. intros x Hx. apply in_map_iff in Hx as (k & <- & _).
  pose proof (N.mod_lt (fold_left toy_mix b 4321 * (k + 3) + fold_left toy_mix b 4321 / (k + 2) + k) 251). lia.
Qed.

Ltac check_sane := unfold ctx_sane; vm_compute; repeat split; congruence.
Lemma toy_sane : ctx_sane toy. Proof. check_sane. Qed.
(** every shipped network configuration satisfies [ctx_sane] *)
Lemma ctx_sane_networks : ctx_sane ctx_mainnet /\ ctx_sane ctx_minimal /\ ctx_sane ctx_goerli /\ ctx_sane ctx_sepolia
  /\ ctx_sane ctx_holesky /\ ctx_sane ctx_hoodi.
Proof. repeat split; vm_compute; congruence. Qed.

Definition zero_cp : Checkpoint := mkCheckpoint 0 zero32.
Definition toy_pk (i : N) : bytes := to_le 48 (i + 1).
(** an active validator with balance 32 ETH *)
Definition toy_validator (i : N) : Validator :=
  mkValidator (toy_pk i) (0 :: repeat 0 31) 32000000000 false 0 0 FAR_FUTURE_EPOCH FAR_FUTURE_EPOCH.
Definition zero_header : BeaconBlockHeader := mkHeader 0 0 zero32 zero32 zero32.
Definition zero_payload_header : ExecutionPayloadHeader :=
  mkPayloadHeader zero32 (repeat 0 20) zero32 zero32 (repeat 0 256) zero32 0 0 0 0 [] 0 zero32 zero32 zero32 0 0 zero32 zero32.
(** a minimal-preset state with [n] active validators at slot [sl] *)
Definition toy_state (n sl : N) : BeaconState := {|
  genesis_time := 1000;
  genesis_validators_root := repeat 7 32;
  slot := sl;
  fork := mkForkRec [0;0;0;1] [1;0;0;1] 0;
  latest_block_header := zero_header;
  block_roots := map (fun i => to_le 32 (i + 1)) (rangeN 64);
  state_roots := repeatN zero32 64;
  historical_roots := [];
  eth1_data := mkEth1 zero32 n zero32;
  eth1_data_votes := [];
  eth1_deposit_index := n;
  validators := map toy_validator (rangeN n);
  balances := repeatN 32000000000 n;
  randao_mixes := map (fun i => to_le 32 (i * 1000003 + 12345)) (rangeN 64);
  slashings := repeatN 0 64;
  previous_epoch_attestations := [];
  current_epoch_attestations := [];
  previous_epoch_participation := repeatN 0 n;
  current_epoch_participation := repeatN 0 n;
  justification_bits := [false; false; false; false];
  previous_justified_checkpoint := zero_cp;
  current_justified_checkpoint := zero_cp;
  finalized_checkpoint := zero_cp;
  inactivity_scores := repeatN 0 n;
  current_sync_committee := mkSyncCom (repeat [] 32) [];
  next_sync_committee := mkSyncCom (repeat [] 32) [];
  latest_execution_payload_header := zero_payload_header;
  next_withdrawal_index := 0;
  next_withdrawal_validator_index := 0;
  historical_summaries := [];
  deposit_receipts_start_index := 0;
  deposit_balance_to_consume := 0;
  exit_balance_to_consume := 0;
  earliest_exit_epoch := 0;
  consolidation_balance_to_consume := 0;
  earliest_consolidation_epoch := 0;
  pending_balance_deposits := [];
  pending_partial_withdrawals := [];
  pending_consolidations := []
|}.
Lemma toy_shape n sl : n <= 2 ^ 40 -> state_shape toy (toy_state n sl).
Proof.
  intros Hn. unfold state_shape, toy_state. cbn [block_roots state_roots randao_mixes slashings justification_bits validators].
  repeat (split; [reflexivity|]). rewrite lenN_map, lenN_rangeN. exact Hn.
Qed.
