(** * Containers as Merkle trees: light client index constants and blob sidecar proofs

    The ssz_rs crate is not in the repository.  Its [generalized_index] is modelled from the SSZ specification: a container with [n] fields
    is a tree of depth ceil(log2 n) over the field roots; a list mixes in its length; asking for an unknown field or for an element
    beyond the limit is an error.  [is_valid_merkle_branch] stays the oracle [merkle_branch_ok]. *)
From Coq Require Import String.
From Verif Require Export Env.
Import ListNotations.

Local Open Scope string_scope.
(** phase0/beacon_state.rs:61-87 *)
Definition state_fields_start : list string :=
  ["genesis_time"; "genesis_validators_root"; "slot"; "fork"; "latest_block_header"; "block_roots"; "state_roots"; "historical_roots"; "eth1_data";
   "eth1_data_votes"; "eth1_deposit_index"; "validators"; "balances"; "randao_mixes"; "slashings"].
Definition state_fields_finality : list string :=
  ["justification_bits"; "previous_justified_checkpoint"; "current_justified_checkpoint"; "finalized_checkpoint"].
(** altair/beacon_state.rs:24-54 *)
Definition state_fields_altair : list string :=
  (state_fields_start ++ ["previous_epoch_participation"; "current_epoch_participation"] ++ state_fields_finality
   ++ ["inactivity_scores"; "current_sync_committee"; "next_sync_committee"])%list.
(** capella/beacon_state.rs:26-63, the same in deneb *)
Definition state_fields_capella : list string :=
  (state_fields_altair ++ ["latest_execution_payload_header"; "next_withdrawal_index"; "next_withdrawal_validator_index"; "historical_summaries"])%list.
(** <fork>/beacon_state.rs: the fields of [BeaconState] in order *)
Definition state_fields (f : Fork) : list string :=
  match f with
  | Phase0 => state_fields_start ++ ["previous_epoch_attestations"; "current_epoch_attestations"] ++ state_fields_finality
  | Altair => state_fields_altair
  (* bellatrix/beacon_state.rs:26-57 *)
  | Bellatrix => state_fields_altair ++ ["latest_execution_payload_header"]
  | Capella | Deneb => state_fields_capella
  (* electra/beacon_state.rs:89-142 *)
  | Electra => state_fields_capella ++ ["deposit_receipts_start_index"; "deposit_balance_to_consume"; "exit_balance_to_consume"; "earliest_exit_epoch";
      "consolidation_balance_to_consume"; "earliest_consolidation_epoch"; "pending_balance_deposits"; "pending_partial_withdrawals"; "pending_consolidations"]
  end%list.
(** <fork>/beacon_block.rs: the fields of [BeaconBlockBody] in order; phase0 20-28, altair 22-31, bellatrix 26-36, capella 29-46, deneb 32-50,
    electra 37-58 *)
Definition body_fields (f : Fork) : list string :=
  (["randao_reveal"; "eth1_data"; "graffiti"; "proposer_slashings"; "attester_slashings"; "attestations"; "deposits"; "voluntary_exits"]
   ++ match f with
      | Phase0 => []
      | Altair => ["sync_aggregate"]
      | Bellatrix => ["sync_aggregate"; "execution_payload"]
      | Capella => ["sync_aggregate"; "execution_payload"; "bls_to_execution_changes"]
      | Deneb => ["sync_aggregate"; "execution_payload"; "bls_to_execution_changes"; "blob_kzg_commitments"]
      | Electra => ["sync_aggregate"; "execution_payload"; "bls_to_execution_changes"; "blob_kzg_commitments"; "consolidations"]
      end)%list.

(** altair/light_client.rs:10-17, re-exported by every later fork: bellatrix/spec/mod.rs:13-17, capella/spec/mod.rs:12-14, deneb/spec/mod.rs:12-14,
    electra/spec/mod.rs:12-14 *)
Definition FINALIZED_ROOT_INDEX : N := 105.
Definition FINALIZED_ROOT_INDEX_FLOOR_LOG_2 : N := 6.
Definition CURRENT_SYNC_COMMITTEE_INDEX : N := 54.
Definition CURRENT_SYNC_COMMITTEE_INDEX_FLOOR_LOG_2 : N := 5.
Definition NEXT_SYNC_COMMITTEE_INDEX : N := 55.
Definition NEXT_SYNC_COMMITTEE_INDEX_FLOOR_LOG_2 : N := 5.
(** capella/light_client.rs:13-14, re-exported by deneb/spec/mod.rs:29 and electra/spec/mod.rs:26 *)
Definition EXECUTION_PAYLOAD_INDEX : N := 25.
Definition EXECUTION_PAYLOAD_INDEX_FLOOR_LOG_2 : N := 4.
(** deneb/presets/mainnet.rs:22, deneb/presets/minimal.rs:22 *)
Definition KZG_COMMITMENT_INCLUSION_PROOF_DEPTH_MAINNET : N := 17.
Definition KZG_COMMITMENT_INCLUSION_PROOF_DEPTH_MINIMAL : N := 9.

Fixpoint position (name : string) (l : list string) (i : N) : option N :=
  match l with
  | [] => None
  | x :: t => if String.eqb x name then Some i else position name t (i + 1)
  end.
(** ssz_rs: [generalized_index] of a field of a container *)
Definition field_gindex (fields : list string) (name : string) : option N :=
  match position name fields 0 with Some i => Some (2 ^ N.log2_up (lenN fields) + i)%N | None => None end.
(** ssz_rs: [generalized_index] of element [index] of a list field with limit [limit] whose elements are containers or vectors *)
Definition element_gindex (fields : list string) (name : string) (limit index : N) : option N :=
  match field_gindex fields name with
  | Some g => if (limit <=? index)%N then None else Some (g * 2 * 2 ^ N.log2_up limit + index)%N
  | None => None
  end.
(** ssz_rs: [get_subtree_index] *)
Definition get_subtree_index (g : N) : N := (g mod 2 ^ N.log2 g)%N.

(** deneb/blob_sidecar.rs:47-64; [leaf] is the hash tree root of the commitment ([None] when it fails) *)
Definition verify_blob_sidecar_inclusion_proof (E : Env) (f : Fork) (limit depth : N) (index : N) (leaf : option bytes) (branch : list bytes)
    (body_root : bytes) : res unit :=
  let! g := ok_or (element_gindex (body_fields f) "blob_kzg_commitments" limit index) EMerkleization in
  let! l := ok_or leaf EMerkleization in
  require (merkle_branch_ok E l branch depth (get_subtree_index g) body_root) EMerkleization.
