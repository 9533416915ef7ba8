(** * A still smaller environment for examples of block and epoch processing *)
From Verif Require Import Base BaseLemmas Types Ctx Env SpecCommon SpecShuffle ToyCtx Toy.

(** every Merkle branch is accepted unless its first element is the single byte 0 *)
Definition tiny_orc : Oracles := {|
  hash := toy_hash;
  htr := toy_htr;
  bls_verify := bls_verify toy_orc;
  fast_aggregate_verify_ok := fast_aggregate_verify_ok toy_orc;
  aggregate_pks := aggregate_pks toy_orc;
  merkle_branch_ok := fun _ branch _ _ _ => match branch with [0] :: _ => false | _ => true end;
  engine_ok := engine_ok toy_orc
|}.
Definition tiny : Env := mkEnv ctx_tiny tiny_orc true false 100%nat.
Definition tiny_release : Env := mkEnv ctx_tiny tiny_orc false false 100%nat.
Lemma tiny_sane : ctx_sane tiny. Proof. check_sane. Qed.

(** [n] active validators at slot [sl]; eligibility and activation in epoch 0 *)
Definition tiny_state (n sl : N) : BeaconState := {|
  genesis_time := 1000;
  genesis_validators_root := repeat 7 32;
  slot := sl;
  fork := mkForkRec [0;0;0;1] [1;0;0;1] 0;
  latest_block_header := zero_header;
  block_roots := map (fun i => to_le 32 (i + 1)) (rangeN 16);
  state_roots := repeatN zero32 16;
  historical_roots := [];
  eth1_data := mkEth1 zero32 n zero32;
  eth1_data_votes := [];
  eth1_deposit_index := n;
  validators := map toy_validator (rangeN n);
  balances := repeatN 32000000000 n;
  randao_mixes := map (fun i => to_le 32 (i * 1000003 + 12345)) (rangeN 8);
  slashings := repeatN 0 8;
  previous_epoch_attestations := [];
  current_epoch_attestations := [];
  previous_epoch_participation := repeatN 0 n;
  current_epoch_participation := repeatN 0 n;
  justification_bits := [false; false; false; false];
  previous_justified_checkpoint := zero_cp;
  current_justified_checkpoint := zero_cp;
  finalized_checkpoint := zero_cp;
  inactivity_scores := repeatN 0 n;
  current_sync_committee := mkSyncCom (map toy_pk [0; 1; 0; 1]) [];
  next_sync_committee := mkSyncCom (map toy_pk [1; 0; 1; 0]) [];
  latest_execution_payload_header := zero_payload_header;
  next_withdrawal_index := 0;
  next_withdrawal_validator_index := 0;
  historical_summaries := [];
  deposit_receipts_start_index := 0;
  deposit_balance_to_consume := 0;
  exit_balance_to_consume := 0;
  earliest_exit_epoch := 0;
  consolidation_balance_to_consume := 0;
  earliest_consolidation_epoch := 0;
  pending_balance_deposits := [];
  pending_partial_withdrawals := [];
  pending_consolidations := []
|}.
Lemma tiny_shape n sl : n <= 2 ^ 40 -> state_shape tiny (tiny_state n sl).
Proof.
  intros Hn. unfold state_shape, tiny_state. cbn [block_roots state_roots randao_mixes slashings justification_bits validators].
  repeat (split; [reflexivity|]). rewrite lenN_map, lenN_rangeN. exact Hn.
Qed.
(** signing in the toy scheme *)
Definition tiny_signing_root (domain : bytes) (o : SszObj) : bytes :=
  match htr tiny o with
  | Some r => match htr tiny (OSigningData r domain) with Some m => m | None => [] end
  | None => []
  end.
