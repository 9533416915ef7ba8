(** * Accessors of the fork-generic types (generated by tools/gen_accessors.py from ethereum-consensus/src/types; do not edit)

    One row per [pub fn] of the three enums [X], [XRef] and [XRefMut] of each file: name, does it take [&mut self], and the arms of its [match self]
    in order, a pattern ([None] is [_]) with what the arm returns. The comment is the line of the function. *)
From Coq Require Import String.
From Verif Require Import Base Types Json Access.
Local Open Scope string_scope.

(** types/beacon_state.rs, BeaconState *)
Definition KState_Owned : list row := [
  (* 129 *) mkRow "phase0" false [(Some Phase0, Whole); (None, Nothing)];
  (* 148 *) mkRow "phase0_mut" true [(Some Phase0, Whole); (None, Nothing)];
  (* 167 *) mkRow "altair" false [(Some Altair, Whole); (None, Nothing)];
  (* 186 *) mkRow "altair_mut" true [(Some Altair, Whole); (None, Nothing)];
  (* 205 *) mkRow "bellatrix" false [(Some Bellatrix, Whole); (None, Nothing)];
  (* 226 *) mkRow "bellatrix_mut" true [(Some Bellatrix, Whole); (None, Nothing)];
  (* 247 *) mkRow "capella" false [(Some Capella, Whole); (None, Nothing)];
  (* 268 *) mkRow "capella_mut" true [(Some Capella, Whole); (None, Nothing)];
  (* 289 *) mkRow "deneb" false [(Some Deneb, Whole); (None, Nothing)];
  (* 310 *) mkRow "deneb_mut" true [(Some Deneb, Whole); (None, Nothing)];
  (* 331 *) mkRow "version" false [(Some Phase0, Version Phase0); (Some Altair, Version Altair); (Some Bellatrix, Version Bellatrix); (Some Capella, Version Capella); (Some Deneb, Version Deneb)];
  (* 340 *) mkRow "genesis_time" false [(Some Phase0, Part "genesis_time"); (Some Altair, Part "genesis_time"); (Some Bellatrix, Part "genesis_time"); (Some Capella, Part "genesis_time"); (Some Deneb, Part "genesis_time")];
  (* 349 *) mkRow "genesis_time_mut" true [(Some Phase0, Part "genesis_time"); (Some Altair, Part "genesis_time"); (Some Bellatrix, Part "genesis_time"); (Some Capella, Part "genesis_time"); (Some Deneb, Part "genesis_time")];
  (* 358 *) mkRow "genesis_validators_root" false [(Some Phase0, Part "genesis_validators_root"); (Some Altair, Part "genesis_validators_root"); (Some Bellatrix, Part "genesis_validators_root"); (Some Capella, Part "genesis_validators_root"); (Some Deneb, Part "genesis_validators_root")];
  (* 367 *) mkRow "genesis_validators_root_mut" true [(Some Phase0, Part "genesis_validators_root"); (Some Altair, Part "genesis_validators_root"); (Some Bellatrix, Part "genesis_validators_root"); (Some Capella, Part "genesis_validators_root"); (Some Deneb, Part "genesis_validators_root")];
  (* 376 *) mkRow "slot" false [(Some Phase0, Part "slot"); (Some Altair, Part "slot"); (Some Bellatrix, Part "slot"); (Some Capella, Part "slot"); (Some Deneb, Part "slot")];
  (* 385 *) mkRow "slot_mut" true [(Some Phase0, Part "slot"); (Some Altair, Part "slot"); (Some Bellatrix, Part "slot"); (Some Capella, Part "slot"); (Some Deneb, Part "slot")];
  (* 394 *) mkRow "fork" false [(Some Phase0, Part "fork"); (Some Altair, Part "fork"); (Some Bellatrix, Part "fork"); (Some Capella, Part "fork"); (Some Deneb, Part "fork")];
  (* 403 *) mkRow "fork_mut" true [(Some Phase0, Part "fork"); (Some Altair, Part "fork"); (Some Bellatrix, Part "fork"); (Some Capella, Part "fork"); (Some Deneb, Part "fork")];
  (* 412 *) mkRow "latest_block_header" false [(Some Phase0, Part "latest_block_header"); (Some Altair, Part "latest_block_header"); (Some Bellatrix, Part "latest_block_header"); (Some Capella, Part "latest_block_header"); (Some Deneb, Part "latest_block_header")];
  (* 421 *) mkRow "latest_block_header_mut" true [(Some Phase0, Part "latest_block_header"); (Some Altair, Part "latest_block_header"); (Some Bellatrix, Part "latest_block_header"); (Some Capella, Part "latest_block_header"); (Some Deneb, Part "latest_block_header")];
  (* 430 *) mkRow "block_roots" false [(Some Phase0, Part "block_roots"); (Some Altair, Part "block_roots"); (Some Bellatrix, Part "block_roots"); (Some Capella, Part "block_roots"); (Some Deneb, Part "block_roots")];
  (* 439 *) mkRow "block_roots_mut" true [(Some Phase0, Part "block_roots"); (Some Altair, Part "block_roots"); (Some Bellatrix, Part "block_roots"); (Some Capella, Part "block_roots"); (Some Deneb, Part "block_roots")];
  (* 448 *) mkRow "state_roots" false [(Some Phase0, Part "state_roots"); (Some Altair, Part "state_roots"); (Some Bellatrix, Part "state_roots"); (Some Capella, Part "state_roots"); (Some Deneb, Part "state_roots")];
  (* 457 *) mkRow "state_roots_mut" true [(Some Phase0, Part "state_roots"); (Some Altair, Part "state_roots"); (Some Bellatrix, Part "state_roots"); (Some Capella, Part "state_roots"); (Some Deneb, Part "state_roots")];
  (* 466 *) mkRow "historical_roots" false [(Some Phase0, Part "historical_roots"); (Some Altair, Part "historical_roots"); (Some Bellatrix, Part "historical_roots"); (Some Capella, Part "historical_roots"); (Some Deneb, Part "historical_roots")];
  (* 475 *) mkRow "historical_roots_mut" true [(Some Phase0, Part "historical_roots"); (Some Altair, Part "historical_roots"); (Some Bellatrix, Part "historical_roots"); (Some Capella, Part "historical_roots"); (Some Deneb, Part "historical_roots")];
  (* 484 *) mkRow "eth1_data" false [(Some Phase0, Part "eth1_data"); (Some Altair, Part "eth1_data"); (Some Bellatrix, Part "eth1_data"); (Some Capella, Part "eth1_data"); (Some Deneb, Part "eth1_data")];
  (* 493 *) mkRow "eth1_data_mut" true [(Some Phase0, Part "eth1_data"); (Some Altair, Part "eth1_data"); (Some Bellatrix, Part "eth1_data"); (Some Capella, Part "eth1_data"); (Some Deneb, Part "eth1_data")];
  (* 502 *) mkRow "eth1_data_votes" false [(Some Phase0, Part "eth1_data_votes"); (Some Altair, Part "eth1_data_votes"); (Some Bellatrix, Part "eth1_data_votes"); (Some Capella, Part "eth1_data_votes"); (Some Deneb, Part "eth1_data_votes")];
  (* 511 *) mkRow "eth1_data_votes_mut" true [(Some Phase0, Part "eth1_data_votes"); (Some Altair, Part "eth1_data_votes"); (Some Bellatrix, Part "eth1_data_votes"); (Some Capella, Part "eth1_data_votes"); (Some Deneb, Part "eth1_data_votes")];
  (* 520 *) mkRow "eth1_deposit_index" false [(Some Phase0, Part "eth1_deposit_index"); (Some Altair, Part "eth1_deposit_index"); (Some Bellatrix, Part "eth1_deposit_index"); (Some Capella, Part "eth1_deposit_index"); (Some Deneb, Part "eth1_deposit_index")];
  (* 529 *) mkRow "eth1_deposit_index_mut" true [(Some Phase0, Part "eth1_deposit_index"); (Some Altair, Part "eth1_deposit_index"); (Some Bellatrix, Part "eth1_deposit_index"); (Some Capella, Part "eth1_deposit_index"); (Some Deneb, Part "eth1_deposit_index")];
  (* 538 *) mkRow "validators" false [(Some Phase0, Part "validators"); (Some Altair, Part "validators"); (Some Bellatrix, Part "validators"); (Some Capella, Part "validators"); (Some Deneb, Part "validators")];
  (* 547 *) mkRow "validators_mut" true [(Some Phase0, Part "validators"); (Some Altair, Part "validators"); (Some Bellatrix, Part "validators"); (Some Capella, Part "validators"); (Some Deneb, Part "validators")];
  (* 556 *) mkRow "balances" false [(Some Phase0, Part "balances"); (Some Altair, Part "balances"); (Some Bellatrix, Part "balances"); (Some Capella, Part "balances"); (Some Deneb, Part "balances")];
  (* 565 *) mkRow "balances_mut" true [(Some Phase0, Part "balances"); (Some Altair, Part "balances"); (Some Bellatrix, Part "balances"); (Some Capella, Part "balances"); (Some Deneb, Part "balances")];
  (* 574 *) mkRow "randao_mixes" false [(Some Phase0, Part "randao_mixes"); (Some Altair, Part "randao_mixes"); (Some Bellatrix, Part "randao_mixes"); (Some Capella, Part "randao_mixes"); (Some Deneb, Part "randao_mixes")];
  (* 583 *) mkRow "randao_mixes_mut" true [(Some Phase0, Part "randao_mixes"); (Some Altair, Part "randao_mixes"); (Some Bellatrix, Part "randao_mixes"); (Some Capella, Part "randao_mixes"); (Some Deneb, Part "randao_mixes")];
  (* 592 *) mkRow "slashings" false [(Some Phase0, Part "slashings"); (Some Altair, Part "slashings"); (Some Bellatrix, Part "slashings"); (Some Capella, Part "slashings"); (Some Deneb, Part "slashings")];
  (* 601 *) mkRow "slashings_mut" true [(Some Phase0, Part "slashings"); (Some Altair, Part "slashings"); (Some Bellatrix, Part "slashings"); (Some Capella, Part "slashings"); (Some Deneb, Part "slashings")];
  (* 610 *) mkRow "previous_epoch_attestations" false [(Some Phase0, Part "previous_epoch_attestations"); (Some Altair, Nothing); (Some Bellatrix, Nothing); (Some Capella, Nothing); (Some Deneb, Nothing)];
  (* 622 *) mkRow "previous_epoch_attestations_mut" true [(Some Phase0, Part "previous_epoch_attestations"); (Some Altair, Nothing); (Some Bellatrix, Nothing); (Some Capella, Nothing); (Some Deneb, Nothing)];
  (* 635 *) mkRow "current_epoch_attestations" false [(Some Phase0, Part "current_epoch_attestations"); (Some Altair, Nothing); (Some Bellatrix, Nothing); (Some Capella, Nothing); (Some Deneb, Nothing)];
  (* 647 *) mkRow "current_epoch_attestations_mut" true [(Some Phase0, Part "current_epoch_attestations"); (Some Altair, Nothing); (Some Bellatrix, Nothing); (Some Capella, Nothing); (Some Deneb, Nothing)];
  (* 660 *) mkRow "justification_bits" false [(Some Phase0, Part "justification_bits"); (Some Altair, Part "justification_bits"); (Some Bellatrix, Part "justification_bits"); (Some Capella, Part "justification_bits"); (Some Deneb, Part "justification_bits")];
  (* 669 *) mkRow "justification_bits_mut" true [(Some Phase0, Part "justification_bits"); (Some Altair, Part "justification_bits"); (Some Bellatrix, Part "justification_bits"); (Some Capella, Part "justification_bits"); (Some Deneb, Part "justification_bits")];
  (* 678 *) mkRow "previous_justified_checkpoint" false [(Some Phase0, Part "previous_justified_checkpoint"); (Some Altair, Part "previous_justified_checkpoint"); (Some Bellatrix, Part "previous_justified_checkpoint"); (Some Capella, Part "previous_justified_checkpoint"); (Some Deneb, Part "previous_justified_checkpoint")];
  (* 687 *) mkRow "previous_justified_checkpoint_mut" true [(Some Phase0, Part "previous_justified_checkpoint"); (Some Altair, Part "previous_justified_checkpoint"); (Some Bellatrix, Part "previous_justified_checkpoint"); (Some Capella, Part "previous_justified_checkpoint"); (Some Deneb, Part "previous_justified_checkpoint")];
  (* 696 *) mkRow "current_justified_checkpoint" false [(Some Phase0, Part "current_justified_checkpoint"); (Some Altair, Part "current_justified_checkpoint"); (Some Bellatrix, Part "current_justified_checkpoint"); (Some Capella, Part "current_justified_checkpoint"); (Some Deneb, Part "current_justified_checkpoint")];
  (* 705 *) mkRow "current_justified_checkpoint_mut" true [(Some Phase0, Part "current_justified_checkpoint"); (Some Altair, Part "current_justified_checkpoint"); (Some Bellatrix, Part "current_justified_checkpoint"); (Some Capella, Part "current_justified_checkpoint"); (Some Deneb, Part "current_justified_checkpoint")];
  (* 714 *) mkRow "finalized_checkpoint" false [(Some Phase0, Part "finalized_checkpoint"); (Some Altair, Part "finalized_checkpoint"); (Some Bellatrix, Part "finalized_checkpoint"); (Some Capella, Part "finalized_checkpoint"); (Some Deneb, Part "finalized_checkpoint")];
  (* 723 *) mkRow "finalized_checkpoint_mut" true [(Some Phase0, Part "finalized_checkpoint"); (Some Altair, Part "finalized_checkpoint"); (Some Bellatrix, Part "finalized_checkpoint"); (Some Capella, Part "finalized_checkpoint"); (Some Deneb, Part "finalized_checkpoint")];
  (* 732 *) mkRow "previous_epoch_participation" false [(Some Phase0, Nothing); (Some Altair, Part "previous_epoch_participation"); (Some Bellatrix, Part "previous_epoch_participation"); (Some Capella, Part "previous_epoch_participation"); (Some Deneb, Part "previous_epoch_participation")];
  (* 743 *) mkRow "previous_epoch_participation_mut" true [(Some Phase0, Nothing); (Some Altair, Part "previous_epoch_participation"); (Some Bellatrix, Part "previous_epoch_participation"); (Some Capella, Part "previous_epoch_participation"); (Some Deneb, Part "previous_epoch_participation")];
  (* 754 *) mkRow "current_epoch_participation" false [(Some Phase0, Nothing); (Some Altair, Part "current_epoch_participation"); (Some Bellatrix, Part "current_epoch_participation"); (Some Capella, Part "current_epoch_participation"); (Some Deneb, Part "current_epoch_participation")];
  (* 765 *) mkRow "current_epoch_participation_mut" true [(Some Phase0, Nothing); (Some Altair, Part "current_epoch_participation"); (Some Bellatrix, Part "current_epoch_participation"); (Some Capella, Part "current_epoch_participation"); (Some Deneb, Part "current_epoch_participation")];
  (* 776 *) mkRow "inactivity_scores" false [(Some Phase0, Nothing); (Some Altair, Part "inactivity_scores"); (Some Bellatrix, Part "inactivity_scores"); (Some Capella, Part "inactivity_scores"); (Some Deneb, Part "inactivity_scores")];
  (* 785 *) mkRow "inactivity_scores_mut" true [(Some Phase0, Nothing); (Some Altair, Part "inactivity_scores"); (Some Bellatrix, Part "inactivity_scores"); (Some Capella, Part "inactivity_scores"); (Some Deneb, Part "inactivity_scores")];
  (* 794 *) mkRow "current_sync_committee" false [(Some Phase0, Nothing); (Some Altair, Part "current_sync_committee"); (Some Bellatrix, Part "current_sync_committee"); (Some Capella, Part "current_sync_committee"); (Some Deneb, Part "current_sync_committee")];
  (* 803 *) mkRow "current_sync_committee_mut" true [(Some Phase0, Nothing); (Some Altair, Part "current_sync_committee"); (Some Bellatrix, Part "current_sync_committee"); (Some Capella, Part "current_sync_committee"); (Some Deneb, Part "current_sync_committee")];
  (* 814 *) mkRow "next_sync_committee" false [(Some Phase0, Nothing); (Some Altair, Part "next_sync_committee"); (Some Bellatrix, Part "next_sync_committee"); (Some Capella, Part "next_sync_committee"); (Some Deneb, Part "next_sync_committee")];
  (* 823 *) mkRow "next_sync_committee_mut" true [(Some Phase0, Nothing); (Some Altair, Part "next_sync_committee"); (Some Bellatrix, Part "next_sync_committee"); (Some Capella, Part "next_sync_committee"); (Some Deneb, Part "next_sync_committee")];
  (* 832 *) mkRow "latest_execution_payload_header" false [(Some Phase0, Nothing); (Some Altair, Nothing); (Some Bellatrix, Wrapped "latest_execution_payload_header"); (Some Capella, Wrapped "latest_execution_payload_header"); (Some Deneb, Wrapped "latest_execution_payload_header")];
  (* 843 *) mkRow "latest_execution_payload_header_mut" true [(Some Phase0, Nothing); (Some Altair, Nothing); (Some Bellatrix, Wrapped "latest_execution_payload_header"); (Some Capella, Wrapped "latest_execution_payload_header"); (Some Deneb, Wrapped "latest_execution_payload_header")];
  (* 854 *) mkRow "next_withdrawal_index" false [(Some Phase0, Nothing); (Some Altair, Nothing); (Some Bellatrix, Nothing); (Some Capella, Part "next_withdrawal_index"); (Some Deneb, Part "next_withdrawal_index")];
  (* 863 *) mkRow "next_withdrawal_index_mut" true [(Some Phase0, Nothing); (Some Altair, Nothing); (Some Bellatrix, Nothing); (Some Capella, Part "next_withdrawal_index"); (Some Deneb, Part "next_withdrawal_index")];
  (* 872 *) mkRow "next_withdrawal_validator_index" false [(Some Phase0, Nothing); (Some Altair, Nothing); (Some Bellatrix, Nothing); (Some Capella, Part "next_withdrawal_validator_index"); (Some Deneb, Part "next_withdrawal_validator_index")];
  (* 881 *) mkRow "next_withdrawal_validator_index_mut" true [(Some Phase0, Nothing); (Some Altair, Nothing); (Some Bellatrix, Nothing); (Some Capella, Part "next_withdrawal_validator_index"); (Some Deneb, Part "next_withdrawal_validator_index")];
  (* 890 *) mkRow "historical_summaries" false [(Some Phase0, Nothing); (Some Altair, Nothing); (Some Bellatrix, Nothing); (Some Capella, Part "historical_summaries"); (Some Deneb, Part "historical_summaries")];
  (* 899 *) mkRow "historical_summaries_mut" true [(Some Phase0, Nothing); (Some Altair, Nothing); (Some Bellatrix, Nothing); (Some Capella, Part "historical_summaries"); (Some Deneb, Part "historical_summaries")]].
(** types/beacon_state.rs, BeaconStateRef *)
Definition KState_Shared : list row := [
  (* 1073 *) mkRow "phase0" false [(Some Phase0, Whole); (None, Nothing)];
  (* 1092 *) mkRow "altair" false [(Some Altair, Whole); (None, Nothing)];
  (* 1111 *) mkRow "bellatrix" false [(Some Bellatrix, Whole); (None, Nothing)];
  (* 1132 *) mkRow "capella" false [(Some Capella, Whole); (None, Nothing)];
  (* 1153 *) mkRow "deneb" false [(Some Deneb, Whole); (None, Nothing)];
  (* 1174 *) mkRow "version" false [(Some Phase0, Version Phase0); (Some Altair, Version Altair); (Some Bellatrix, Version Bellatrix); (Some Capella, Version Capella); (Some Deneb, Version Deneb)];
  (* 1183 *) mkRow "genesis_time" false [(Some Phase0, Part "genesis_time"); (Some Altair, Part "genesis_time"); (Some Bellatrix, Part "genesis_time"); (Some Capella, Part "genesis_time"); (Some Deneb, Part "genesis_time")];
  (* 1192 *) mkRow "genesis_validators_root" false [(Some Phase0, Part "genesis_validators_root"); (Some Altair, Part "genesis_validators_root"); (Some Bellatrix, Part "genesis_validators_root"); (Some Capella, Part "genesis_validators_root"); (Some Deneb, Part "genesis_validators_root")];
  (* 1201 *) mkRow "slot" false [(Some Phase0, Part "slot"); (Some Altair, Part "slot"); (Some Bellatrix, Part "slot"); (Some Capella, Part "slot"); (Some Deneb, Part "slot")];
  (* 1210 *) mkRow "fork" false [(Some Phase0, Part "fork"); (Some Altair, Part "fork"); (Some Bellatrix, Part "fork"); (Some Capella, Part "fork"); (Some Deneb, Part "fork")];
  (* 1219 *) mkRow "latest_block_header" false [(Some Phase0, Part "latest_block_header"); (Some Altair, Part "latest_block_header"); (Some Bellatrix, Part "latest_block_header"); (Some Capella, Part "latest_block_header"); (Some Deneb, Part "latest_block_header")];
  (* 1228 *) mkRow "block_roots" false [(Some Phase0, Part "block_roots"); (Some Altair, Part "block_roots"); (Some Bellatrix, Part "block_roots"); (Some Capella, Part "block_roots"); (Some Deneb, Part "block_roots")];
  (* 1237 *) mkRow "state_roots" false [(Some Phase0, Part "state_roots"); (Some Altair, Part "state_roots"); (Some Bellatrix, Part "state_roots"); (Some Capella, Part "state_roots"); (Some Deneb, Part "state_roots")];
  (* 1246 *) mkRow "historical_roots" false [(Some Phase0, Part "historical_roots"); (Some Altair, Part "historical_roots"); (Some Bellatrix, Part "historical_roots"); (Some Capella, Part "historical_roots"); (Some Deneb, Part "historical_roots")];
  (* 1255 *) mkRow "eth1_data" false [(Some Phase0, Part "eth1_data"); (Some Altair, Part "eth1_data"); (Some Bellatrix, Part "eth1_data"); (Some Capella, Part "eth1_data"); (Some Deneb, Part "eth1_data")];
  (* 1264 *) mkRow "eth1_data_votes" false [(Some Phase0, Part "eth1_data_votes"); (Some Altair, Part "eth1_data_votes"); (Some Bellatrix, Part "eth1_data_votes"); (Some Capella, Part "eth1_data_votes"); (Some Deneb, Part "eth1_data_votes")];
  (* 1273 *) mkRow "eth1_deposit_index" false [(Some Phase0, Part "eth1_deposit_index"); (Some Altair, Part "eth1_deposit_index"); (Some Bellatrix, Part "eth1_deposit_index"); (Some Capella, Part "eth1_deposit_index"); (Some Deneb, Part "eth1_deposit_index")];
  (* 1282 *) mkRow "validators" false [(Some Phase0, Part "validators"); (Some Altair, Part "validators"); (Some Bellatrix, Part "validators"); (Some Capella, Part "validators"); (Some Deneb, Part "validators")];
  (* 1291 *) mkRow "balances" false [(Some Phase0, Part "balances"); (Some Altair, Part "balances"); (Some Bellatrix, Part "balances"); (Some Capella, Part "balances"); (Some Deneb, Part "balances")];
  (* 1300 *) mkRow "randao_mixes" false [(Some Phase0, Part "randao_mixes"); (Some Altair, Part "randao_mixes"); (Some Bellatrix, Part "randao_mixes"); (Some Capella, Part "randao_mixes"); (Some Deneb, Part "randao_mixes")];
  (* 1309 *) mkRow "slashings" false [(Some Phase0, Part "slashings"); (Some Altair, Part "slashings"); (Some Bellatrix, Part "slashings"); (Some Capella, Part "slashings"); (Some Deneb, Part "slashings")];
  (* 1318 *) mkRow "previous_epoch_attestations" false [(Some Phase0, Part "previous_epoch_attestations"); (Some Altair, Nothing); (Some Bellatrix, Nothing); (Some Capella, Nothing); (Some Deneb, Nothing)];
  (* 1330 *) mkRow "current_epoch_attestations" false [(Some Phase0, Part "current_epoch_attestations"); (Some Altair, Nothing); (Some Bellatrix, Nothing); (Some Capella, Nothing); (Some Deneb, Nothing)];
  (* 1342 *) mkRow "justification_bits" false [(Some Phase0, Part "justification_bits"); (Some Altair, Part "justification_bits"); (Some Bellatrix, Part "justification_bits"); (Some Capella, Part "justification_bits"); (Some Deneb, Part "justification_bits")];
  (* 1351 *) mkRow "previous_justified_checkpoint" false [(Some Phase0, Part "previous_justified_checkpoint"); (Some Altair, Part "previous_justified_checkpoint"); (Some Bellatrix, Part "previous_justified_checkpoint"); (Some Capella, Part "previous_justified_checkpoint"); (Some Deneb, Part "previous_justified_checkpoint")];
  (* 1360 *) mkRow "current_justified_checkpoint" false [(Some Phase0, Part "current_justified_checkpoint"); (Some Altair, Part "current_justified_checkpoint"); (Some Bellatrix, Part "current_justified_checkpoint"); (Some Capella, Part "current_justified_checkpoint"); (Some Deneb, Part "current_justified_checkpoint")];
  (* 1369 *) mkRow "finalized_checkpoint" false [(Some Phase0, Part "finalized_checkpoint"); (Some Altair, Part "finalized_checkpoint"); (Some Bellatrix, Part "finalized_checkpoint"); (Some Capella, Part "finalized_checkpoint"); (Some Deneb, Part "finalized_checkpoint")];
  (* 1378 *) mkRow "previous_epoch_participation" false [(Some Phase0, Nothing); (Some Altair, Part "previous_epoch_participation"); (Some Bellatrix, Part "previous_epoch_participation"); (Some Capella, Part "previous_epoch_participation"); (Some Deneb, Part "previous_epoch_participation")];
  (* 1389 *) mkRow "current_epoch_participation" false [(Some Phase0, Nothing); (Some Altair, Part "current_epoch_participation"); (Some Bellatrix, Part "current_epoch_participation"); (Some Capella, Part "current_epoch_participation"); (Some Deneb, Part "current_epoch_participation")];
  (* 1400 *) mkRow "inactivity_scores" false [(Some Phase0, Nothing); (Some Altair, Part "inactivity_scores"); (Some Bellatrix, Part "inactivity_scores"); (Some Capella, Part "inactivity_scores"); (Some Deneb, Part "inactivity_scores")];
  (* 1409 *) mkRow "current_sync_committee" false [(Some Phase0, Nothing); (Some Altair, Part "current_sync_committee"); (Some Bellatrix, Part "current_sync_committee"); (Some Capella, Part "current_sync_committee"); (Some Deneb, Part "current_sync_committee")];
  (* 1418 *) mkRow "next_sync_committee" false [(Some Phase0, Nothing); (Some Altair, Part "next_sync_committee"); (Some Bellatrix, Part "next_sync_committee"); (Some Capella, Part "next_sync_committee"); (Some Deneb, Part "next_sync_committee")];
  (* 1427 *) mkRow "latest_execution_payload_header" false [(Some Phase0, Nothing); (Some Altair, Nothing); (Some Bellatrix, Wrapped "latest_execution_payload_header"); (Some Capella, Wrapped "latest_execution_payload_header"); (Some Deneb, Wrapped "latest_execution_payload_header")];
  (* 1438 *) mkRow "next_withdrawal_index" false [(Some Phase0, Nothing); (Some Altair, Nothing); (Some Bellatrix, Nothing); (Some Capella, Part "next_withdrawal_index"); (Some Deneb, Part "next_withdrawal_index")];
  (* 1447 *) mkRow "next_withdrawal_validator_index" false [(Some Phase0, Nothing); (Some Altair, Nothing); (Some Bellatrix, Nothing); (Some Capella, Part "next_withdrawal_validator_index"); (Some Deneb, Part "next_withdrawal_validator_index")];
  (* 1456 *) mkRow "historical_summaries" false [(Some Phase0, Nothing); (Some Altair, Nothing); (Some Bellatrix, Nothing); (Some Capella, Part "historical_summaries"); (Some Deneb, Part "historical_summaries")]].
(** types/beacon_state.rs, BeaconStateRefMut *)
Definition KState_Exclusive : list row := [
  (* 1869 *) mkRow "phase0" false [(Some Phase0, Whole); (None, Nothing)];
  (* 1888 *) mkRow "phase0_mut" true [(Some Phase0, Whole); (None, Nothing)];
  (* 1907 *) mkRow "altair" false [(Some Altair, Whole); (None, Nothing)];
  (* 1926 *) mkRow "altair_mut" true [(Some Altair, Whole); (None, Nothing)];
  (* 1945 *) mkRow "bellatrix" false [(Some Bellatrix, Whole); (None, Nothing)];
  (* 1966 *) mkRow "bellatrix_mut" true [(Some Bellatrix, Whole); (None, Nothing)];
  (* 1987 *) mkRow "capella" false [(Some Capella, Whole); (None, Nothing)];
  (* 2008 *) mkRow "capella_mut" true [(Some Capella, Whole); (None, Nothing)];
  (* 2029 *) mkRow "deneb" false [(Some Deneb, Whole); (None, Nothing)];
  (* 2050 *) mkRow "deneb_mut" true [(Some Deneb, Whole); (None, Nothing)];
  (* 2071 *) mkRow "version" false [(Some Phase0, Version Phase0); (Some Altair, Version Altair); (Some Bellatrix, Version Bellatrix); (Some Capella, Version Capella); (Some Deneb, Version Deneb)];
  (* 2080 *) mkRow "genesis_time" false [(Some Phase0, Part "genesis_time"); (Some Altair, Part "genesis_time"); (Some Bellatrix, Part "genesis_time"); (Some Capella, Part "genesis_time"); (Some Deneb, Part "genesis_time")];
  (* 2089 *) mkRow "genesis_time_mut" true [(Some Phase0, Part "genesis_time"); (Some Altair, Part "genesis_time"); (Some Bellatrix, Part "genesis_time"); (Some Capella, Part "genesis_time"); (Some Deneb, Part "genesis_time")];
  (* 2098 *) mkRow "genesis_validators_root" false [(Some Phase0, Part "genesis_validators_root"); (Some Altair, Part "genesis_validators_root"); (Some Bellatrix, Part "genesis_validators_root"); (Some Capella, Part "genesis_validators_root"); (Some Deneb, Part "genesis_validators_root")];
  (* 2107 *) mkRow "genesis_validators_root_mut" true [(Some Phase0, Part "genesis_validators_root"); (Some Altair, Part "genesis_validators_root"); (Some Bellatrix, Part "genesis_validators_root"); (Some Capella, Part "genesis_validators_root"); (Some Deneb, Part "genesis_validators_root")];
  (* 2116 *) mkRow "slot" false [(Some Phase0, Part "slot"); (Some Altair, Part "slot"); (Some Bellatrix, Part "slot"); (Some Capella, Part "slot"); (Some Deneb, Part "slot")];
  (* 2125 *) mkRow "slot_mut" true [(Some Phase0, Part "slot"); (Some Altair, Part "slot"); (Some Bellatrix, Part "slot"); (Some Capella, Part "slot"); (Some Deneb, Part "slot")];
  (* 2134 *) mkRow "fork" false [(Some Phase0, Part "fork"); (Some Altair, Part "fork"); (Some Bellatrix, Part "fork"); (Some Capella, Part "fork"); (Some Deneb, Part "fork")];
  (* 2143 *) mkRow "fork_mut" true [(Some Phase0, Part "fork"); (Some Altair, Part "fork"); (Some Bellatrix, Part "fork"); (Some Capella, Part "fork"); (Some Deneb, Part "fork")];
  (* 2152 *) mkRow "latest_block_header" false [(Some Phase0, Part "latest_block_header"); (Some Altair, Part "latest_block_header"); (Some Bellatrix, Part "latest_block_header"); (Some Capella, Part "latest_block_header"); (Some Deneb, Part "latest_block_header")];
  (* 2161 *) mkRow "latest_block_header_mut" true [(Some Phase0, Part "latest_block_header"); (Some Altair, Part "latest_block_header"); (Some Bellatrix, Part "latest_block_header"); (Some Capella, Part "latest_block_header"); (Some Deneb, Part "latest_block_header")];
  (* 2170 *) mkRow "block_roots" false [(Some Phase0, Part "block_roots"); (Some Altair, Part "block_roots"); (Some Bellatrix, Part "block_roots"); (Some Capella, Part "block_roots"); (Some Deneb, Part "block_roots")];
  (* 2179 *) mkRow "block_roots_mut" true [(Some Phase0, Part "block_roots"); (Some Altair, Part "block_roots"); (Some Bellatrix, Part "block_roots"); (Some Capella, Part "block_roots"); (Some Deneb, Part "block_roots")];
  (* 2188 *) mkRow "state_roots" false [(Some Phase0, Part "state_roots"); (Some Altair, Part "state_roots"); (Some Bellatrix, Part "state_roots"); (Some Capella, Part "state_roots"); (Some Deneb, Part "state_roots")];
  (* 2197 *) mkRow "state_roots_mut" true [(Some Phase0, Part "state_roots"); (Some Altair, Part "state_roots"); (Some Bellatrix, Part "state_roots"); (Some Capella, Part "state_roots"); (Some Deneb, Part "state_roots")];
  (* 2206 *) mkRow "historical_roots" false [(Some Phase0, Part "historical_roots"); (Some Altair, Part "historical_roots"); (Some Bellatrix, Part "historical_roots"); (Some Capella, Part "historical_roots"); (Some Deneb, Part "historical_roots")];
  (* 2215 *) mkRow "historical_roots_mut" true [(Some Phase0, Part "historical_roots"); (Some Altair, Part "historical_roots"); (Some Bellatrix, Part "historical_roots"); (Some Capella, Part "historical_roots"); (Some Deneb, Part "historical_roots")];
  (* 2224 *) mkRow "eth1_data" false [(Some Phase0, Part "eth1_data"); (Some Altair, Part "eth1_data"); (Some Bellatrix, Part "eth1_data"); (Some Capella, Part "eth1_data"); (Some Deneb, Part "eth1_data")];
  (* 2233 *) mkRow "eth1_data_mut" true [(Some Phase0, Part "eth1_data"); (Some Altair, Part "eth1_data"); (Some Bellatrix, Part "eth1_data"); (Some Capella, Part "eth1_data"); (Some Deneb, Part "eth1_data")];
  (* 2242 *) mkRow "eth1_data_votes" false [(Some Phase0, Part "eth1_data_votes"); (Some Altair, Part "eth1_data_votes"); (Some Bellatrix, Part "eth1_data_votes"); (Some Capella, Part "eth1_data_votes"); (Some Deneb, Part "eth1_data_votes")];
  (* 2251 *) mkRow "eth1_data_votes_mut" true [(Some Phase0, Part "eth1_data_votes"); (Some Altair, Part "eth1_data_votes"); (Some Bellatrix, Part "eth1_data_votes"); (Some Capella, Part "eth1_data_votes"); (Some Deneb, Part "eth1_data_votes")];
  (* 2260 *) mkRow "eth1_deposit_index" false [(Some Phase0, Part "eth1_deposit_index"); (Some Altair, Part "eth1_deposit_index"); (Some Bellatrix, Part "eth1_deposit_index"); (Some Capella, Part "eth1_deposit_index"); (Some Deneb, Part "eth1_deposit_index")];
  (* 2269 *) mkRow "eth1_deposit_index_mut" true [(Some Phase0, Part "eth1_deposit_index"); (Some Altair, Part "eth1_deposit_index"); (Some Bellatrix, Part "eth1_deposit_index"); (Some Capella, Part "eth1_deposit_index"); (Some Deneb, Part "eth1_deposit_index")];
  (* 2278 *) mkRow "validators" false [(Some Phase0, Part "validators"); (Some Altair, Part "validators"); (Some Bellatrix, Part "validators"); (Some Capella, Part "validators"); (Some Deneb, Part "validators")];
  (* 2287 *) mkRow "validators_mut" true [(Some Phase0, Part "validators"); (Some Altair, Part "validators"); (Some Bellatrix, Part "validators"); (Some Capella, Part "validators"); (Some Deneb, Part "validators")];
  (* 2296 *) mkRow "balances" false [(Some Phase0, Part "balances"); (Some Altair, Part "balances"); (Some Bellatrix, Part "balances"); (Some Capella, Part "balances"); (Some Deneb, Part "balances")];
  (* 2305 *) mkRow "balances_mut" true [(Some Phase0, Part "balances"); (Some Altair, Part "balances"); (Some Bellatrix, Part "balances"); (Some Capella, Part "balances"); (Some Deneb, Part "balances")];
  (* 2314 *) mkRow "randao_mixes" false [(Some Phase0, Part "randao_mixes"); (Some Altair, Part "randao_mixes"); (Some Bellatrix, Part "randao_mixes"); (Some Capella, Part "randao_mixes"); (Some Deneb, Part "randao_mixes")];
  (* 2323 *) mkRow "randao_mixes_mut" true [(Some Phase0, Part "randao_mixes"); (Some Altair, Part "randao_mixes"); (Some Bellatrix, Part "randao_mixes"); (Some Capella, Part "randao_mixes"); (Some Deneb, Part "randao_mixes")];
  (* 2332 *) mkRow "slashings" false [(Some Phase0, Part "slashings"); (Some Altair, Part "slashings"); (Some Bellatrix, Part "slashings"); (Some Capella, Part "slashings"); (Some Deneb, Part "slashings")];
  (* 2341 *) mkRow "slashings_mut" true [(Some Phase0, Part "slashings"); (Some Altair, Part "slashings"); (Some Bellatrix, Part "slashings"); (Some Capella, Part "slashings"); (Some Deneb, Part "slashings")];
  (* 2350 *) mkRow "previous_epoch_attestations" false [(Some Phase0, Part "previous_epoch_attestations"); (Some Altair, Nothing); (Some Bellatrix, Nothing); (Some Capella, Nothing); (Some Deneb, Nothing)];
  (* 2362 *) mkRow "previous_epoch_attestations_mut" true [(Some Phase0, Part "previous_epoch_attestations"); (Some Altair, Nothing); (Some Bellatrix, Nothing); (Some Capella, Nothing); (Some Deneb, Nothing)];
  (* 2375 *) mkRow "current_epoch_attestations" false [(Some Phase0, Part "current_epoch_attestations"); (Some Altair, Nothing); (Some Bellatrix, Nothing); (Some Capella, Nothing); (Some Deneb, Nothing)];
  (* 2387 *) mkRow "current_epoch_attestations_mut" true [(Some Phase0, Part "current_epoch_attestations"); (Some Altair, Nothing); (Some Bellatrix, Nothing); (Some Capella, Nothing); (Some Deneb, Nothing)];
  (* 2400 *) mkRow "justification_bits" false [(Some Phase0, Part "justification_bits"); (Some Altair, Part "justification_bits"); (Some Bellatrix, Part "justification_bits"); (Some Capella, Part "justification_bits"); (Some Deneb, Part "justification_bits")];
  (* 2409 *) mkRow "justification_bits_mut" true [(Some Phase0, Part "justification_bits"); (Some Altair, Part "justification_bits"); (Some Bellatrix, Part "justification_bits"); (Some Capella, Part "justification_bits"); (Some Deneb, Part "justification_bits")];
  (* 2418 *) mkRow "previous_justified_checkpoint" false [(Some Phase0, Part "previous_justified_checkpoint"); (Some Altair, Part "previous_justified_checkpoint"); (Some Bellatrix, Part "previous_justified_checkpoint"); (Some Capella, Part "previous_justified_checkpoint"); (Some Deneb, Part "previous_justified_checkpoint")];
  (* 2427 *) mkRow "previous_justified_checkpoint_mut" true [(Some Phase0, Part "previous_justified_checkpoint"); (Some Altair, Part "previous_justified_checkpoint"); (Some Bellatrix, Part "previous_justified_checkpoint"); (Some Capella, Part "previous_justified_checkpoint"); (Some Deneb, Part "previous_justified_checkpoint")];
  (* 2436 *) mkRow "current_justified_checkpoint" false [(Some Phase0, Part "current_justified_checkpoint"); (Some Altair, Part "current_justified_checkpoint"); (Some Bellatrix, Part "current_justified_checkpoint"); (Some Capella, Part "current_justified_checkpoint"); (Some Deneb, Part "current_justified_checkpoint")];
  (* 2445 *) mkRow "current_justified_checkpoint_mut" true [(Some Phase0, Part "current_justified_checkpoint"); (Some Altair, Part "current_justified_checkpoint"); (Some Bellatrix, Part "current_justified_checkpoint"); (Some Capella, Part "current_justified_checkpoint"); (Some Deneb, Part "current_justified_checkpoint")];
  (* 2454 *) mkRow "finalized_checkpoint" false [(Some Phase0, Part "finalized_checkpoint"); (Some Altair, Part "finalized_checkpoint"); (Some Bellatrix, Part "finalized_checkpoint"); (Some Capella, Part "finalized_checkpoint"); (Some Deneb, Part "finalized_checkpoint")];
  (* 2463 *) mkRow "finalized_checkpoint_mut" true [(Some Phase0, Part "finalized_checkpoint"); (Some Altair, Part "finalized_checkpoint"); (Some Bellatrix, Part "finalized_checkpoint"); (Some Capella, Part "finalized_checkpoint"); (Some Deneb, Part "finalized_checkpoint")];
  (* 2472 *) mkRow "previous_epoch_participation" false [(Some Phase0, Nothing); (Some Altair, Part "previous_epoch_participation"); (Some Bellatrix, Part "previous_epoch_participation"); (Some Capella, Part "previous_epoch_participation"); (Some Deneb, Part "previous_epoch_participation")];
  (* 2483 *) mkRow "previous_epoch_participation_mut" true [(Some Phase0, Nothing); (Some Altair, Part "previous_epoch_participation"); (Some Bellatrix, Part "previous_epoch_participation"); (Some Capella, Part "previous_epoch_participation"); (Some Deneb, Part "previous_epoch_participation")];
  (* 2494 *) mkRow "current_epoch_participation" false [(Some Phase0, Nothing); (Some Altair, Part "current_epoch_participation"); (Some Bellatrix, Part "current_epoch_participation"); (Some Capella, Part "current_epoch_participation"); (Some Deneb, Part "current_epoch_participation")];
  (* 2505 *) mkRow "current_epoch_participation_mut" true [(Some Phase0, Nothing); (Some Altair, Part "current_epoch_participation"); (Some Bellatrix, Part "current_epoch_participation"); (Some Capella, Part "current_epoch_participation"); (Some Deneb, Part "current_epoch_participation")];
  (* 2516 *) mkRow "inactivity_scores" false [(Some Phase0, Nothing); (Some Altair, Part "inactivity_scores"); (Some Bellatrix, Part "inactivity_scores"); (Some Capella, Part "inactivity_scores"); (Some Deneb, Part "inactivity_scores")];
  (* 2525 *) mkRow "inactivity_scores_mut" true [(Some Phase0, Nothing); (Some Altair, Part "inactivity_scores"); (Some Bellatrix, Part "inactivity_scores"); (Some Capella, Part "inactivity_scores"); (Some Deneb, Part "inactivity_scores")];
  (* 2534 *) mkRow "current_sync_committee" false [(Some Phase0, Nothing); (Some Altair, Part "current_sync_committee"); (Some Bellatrix, Part "current_sync_committee"); (Some Capella, Part "current_sync_committee"); (Some Deneb, Part "current_sync_committee")];
  (* 2543 *) mkRow "current_sync_committee_mut" true [(Some Phase0, Nothing); (Some Altair, Part "current_sync_committee"); (Some Bellatrix, Part "current_sync_committee"); (Some Capella, Part "current_sync_committee"); (Some Deneb, Part "current_sync_committee")];
  (* 2554 *) mkRow "next_sync_committee" false [(Some Phase0, Nothing); (Some Altair, Part "next_sync_committee"); (Some Bellatrix, Part "next_sync_committee"); (Some Capella, Part "next_sync_committee"); (Some Deneb, Part "next_sync_committee")];
  (* 2563 *) mkRow "next_sync_committee_mut" true [(Some Phase0, Nothing); (Some Altair, Part "next_sync_committee"); (Some Bellatrix, Part "next_sync_committee"); (Some Capella, Part "next_sync_committee"); (Some Deneb, Part "next_sync_committee")];
  (* 2572 *) mkRow "latest_execution_payload_header" false [(Some Phase0, Nothing); (Some Altair, Nothing); (Some Bellatrix, Wrapped "latest_execution_payload_header"); (Some Capella, Wrapped "latest_execution_payload_header"); (Some Deneb, Wrapped "latest_execution_payload_header")];
  (* 2583 *) mkRow "latest_execution_payload_header_mut" true [(Some Phase0, Nothing); (Some Altair, Nothing); (Some Bellatrix, Wrapped "latest_execution_payload_header"); (Some Capella, Wrapped "latest_execution_payload_header"); (Some Deneb, Wrapped "latest_execution_payload_header")];
  (* 2594 *) mkRow "next_withdrawal_index" false [(Some Phase0, Nothing); (Some Altair, Nothing); (Some Bellatrix, Nothing); (Some Capella, Part "next_withdrawal_index"); (Some Deneb, Part "next_withdrawal_index")];
  (* 2603 *) mkRow "next_withdrawal_index_mut" true [(Some Phase0, Nothing); (Some Altair, Nothing); (Some Bellatrix, Nothing); (Some Capella, Part "next_withdrawal_index"); (Some Deneb, Part "next_withdrawal_index")];
  (* 2612 *) mkRow "next_withdrawal_validator_index" false [(Some Phase0, Nothing); (Some Altair, Nothing); (Some Bellatrix, Nothing); (Some Capella, Part "next_withdrawal_validator_index"); (Some Deneb, Part "next_withdrawal_validator_index")];
  (* 2621 *) mkRow "next_withdrawal_validator_index_mut" true [(Some Phase0, Nothing); (Some Altair, Nothing); (Some Bellatrix, Nothing); (Some Capella, Part "next_withdrawal_validator_index"); (Some Deneb, Part "next_withdrawal_validator_index")];
  (* 2630 *) mkRow "historical_summaries" false [(Some Phase0, Nothing); (Some Altair, Nothing); (Some Bellatrix, Nothing); (Some Capella, Part "historical_summaries"); (Some Deneb, Part "historical_summaries")];
  (* 2639 *) mkRow "historical_summaries_mut" true [(Some Phase0, Nothing); (Some Altair, Nothing); (Some Bellatrix, Nothing); (Some Capella, Part "historical_summaries"); (Some Deneb, Part "historical_summaries")]].
(** types/beacon_block_body.rs, BeaconBlockBody *)
Definition KBody_Owned : list row := [
  (* 141 *) mkRow "phase0" false [(Some Phase0, Whole); (None, Nothing)];
  (* 158 *) mkRow "phase0_mut" true [(Some Phase0, Whole); (None, Nothing)];
  (* 175 *) mkRow "altair" false [(Some Altair, Whole); (None, Nothing)];
  (* 193 *) mkRow "altair_mut" true [(Some Altair, Whole); (None, Nothing)];
  (* 211 *) mkRow "bellatrix" false [(Some Bellatrix, Whole); (None, Nothing)];
  (* 233 *) mkRow "bellatrix_mut" true [(Some Bellatrix, Whole); (None, Nothing)];
  (* 255 *) mkRow "capella" false [(Some Capella, Whole); (None, Nothing)];
  (* 279 *) mkRow "capella_mut" true [(Some Capella, Whole); (None, Nothing)];
  (* 303 *) mkRow "deneb" false [(Some Deneb, Whole); (None, Nothing)];
  (* 328 *) mkRow "deneb_mut" true [(Some Deneb, Whole); (None, Nothing)];
  (* 353 *) mkRow "version" false [(Some Phase0, Version Phase0); (Some Altair, Version Altair); (Some Bellatrix, Version Bellatrix); (Some Capella, Version Capella); (Some Deneb, Version Deneb)];
  (* 362 *) mkRow "randao_reveal" false [(Some Phase0, Part "randao_reveal"); (Some Altair, Part "randao_reveal"); (Some Bellatrix, Part "randao_reveal"); (Some Capella, Part "randao_reveal"); (Some Deneb, Part "randao_reveal")];
  (* 371 *) mkRow "randao_reveal_mut" true [(Some Phase0, Part "randao_reveal"); (Some Altair, Part "randao_reveal"); (Some Bellatrix, Part "randao_reveal"); (Some Capella, Part "randao_reveal"); (Some Deneb, Part "randao_reveal")];
  (* 380 *) mkRow "eth1_data" false [(Some Phase0, Part "eth1_data"); (Some Altair, Part "eth1_data"); (Some Bellatrix, Part "eth1_data"); (Some Capella, Part "eth1_data"); (Some Deneb, Part "eth1_data")];
  (* 389 *) mkRow "eth1_data_mut" true [(Some Phase0, Part "eth1_data"); (Some Altair, Part "eth1_data"); (Some Bellatrix, Part "eth1_data"); (Some Capella, Part "eth1_data"); (Some Deneb, Part "eth1_data")];
  (* 398 *) mkRow "graffiti" false [(Some Phase0, Part "graffiti"); (Some Altair, Part "graffiti"); (Some Bellatrix, Part "graffiti"); (Some Capella, Part "graffiti"); (Some Deneb, Part "graffiti")];
  (* 407 *) mkRow "graffiti_mut" true [(Some Phase0, Part "graffiti"); (Some Altair, Part "graffiti"); (Some Bellatrix, Part "graffiti"); (Some Capella, Part "graffiti"); (Some Deneb, Part "graffiti")];
  (* 416 *) mkRow "proposer_slashings" false [(Some Phase0, Part "proposer_slashings"); (Some Altair, Part "proposer_slashings"); (Some Bellatrix, Part "proposer_slashings"); (Some Capella, Part "proposer_slashings"); (Some Deneb, Part "proposer_slashings")];
  (* 425 *) mkRow "proposer_slashings_mut" true [(Some Phase0, Part "proposer_slashings"); (Some Altair, Part "proposer_slashings"); (Some Bellatrix, Part "proposer_slashings"); (Some Capella, Part "proposer_slashings"); (Some Deneb, Part "proposer_slashings")];
  (* 436 *) mkRow "attester_slashings" false [(Some Phase0, Part "attester_slashings"); (Some Altair, Part "attester_slashings"); (Some Bellatrix, Part "attester_slashings"); (Some Capella, Part "attester_slashings"); (Some Deneb, Part "attester_slashings")];
  (* 447 *) mkRow "attester_slashings_mut" true [(Some Phase0, Part "attester_slashings"); (Some Altair, Part "attester_slashings"); (Some Bellatrix, Part "attester_slashings"); (Some Capella, Part "attester_slashings"); (Some Deneb, Part "attester_slashings")];
  (* 458 *) mkRow "attestations" false [(Some Phase0, Part "attestations"); (Some Altair, Part "attestations"); (Some Bellatrix, Part "attestations"); (Some Capella, Part "attestations"); (Some Deneb, Part "attestations")];
  (* 469 *) mkRow "attestations_mut" true [(Some Phase0, Part "attestations"); (Some Altair, Part "attestations"); (Some Bellatrix, Part "attestations"); (Some Capella, Part "attestations"); (Some Deneb, Part "attestations")];
  (* 480 *) mkRow "deposits" false [(Some Phase0, Part "deposits"); (Some Altair, Part "deposits"); (Some Bellatrix, Part "deposits"); (Some Capella, Part "deposits"); (Some Deneb, Part "deposits")];
  (* 489 *) mkRow "deposits_mut" true [(Some Phase0, Part "deposits"); (Some Altair, Part "deposits"); (Some Bellatrix, Part "deposits"); (Some Capella, Part "deposits"); (Some Deneb, Part "deposits")];
  (* 498 *) mkRow "voluntary_exits" false [(Some Phase0, Part "voluntary_exits"); (Some Altair, Part "voluntary_exits"); (Some Bellatrix, Part "voluntary_exits"); (Some Capella, Part "voluntary_exits"); (Some Deneb, Part "voluntary_exits")];
  (* 507 *) mkRow "voluntary_exits_mut" true [(Some Phase0, Part "voluntary_exits"); (Some Altair, Part "voluntary_exits"); (Some Bellatrix, Part "voluntary_exits"); (Some Capella, Part "voluntary_exits"); (Some Deneb, Part "voluntary_exits")];
  (* 516 *) mkRow "sync_aggregate" false [(Some Phase0, Nothing); (Some Altair, Part "sync_aggregate"); (Some Bellatrix, Part "sync_aggregate"); (Some Capella, Part "sync_aggregate"); (Some Deneb, Part "sync_aggregate")];
  (* 525 *) mkRow "sync_aggregate_mut" true [(Some Phase0, Nothing); (Some Altair, Part "sync_aggregate"); (Some Bellatrix, Part "sync_aggregate"); (Some Capella, Part "sync_aggregate"); (Some Deneb, Part "sync_aggregate")];
  (* 534 *) mkRow "execution_payload" false [(Some Phase0, Nothing); (Some Altair, Nothing); (Some Bellatrix, Wrapped "execution_payload"); (Some Capella, Wrapped "execution_payload"); (Some Deneb, Wrapped "execution_payload")];
  (* 553 *) mkRow "execution_payload_mut" true [(Some Phase0, Nothing); (Some Altair, Nothing); (Some Bellatrix, Wrapped "execution_payload"); (Some Capella, Wrapped "execution_payload"); (Some Deneb, Wrapped "execution_payload")];
  (* 572 *) mkRow "bls_to_execution_changes" false [(Some Phase0, Nothing); (Some Altair, Nothing); (Some Bellatrix, Nothing); (Some Capella, Part "bls_to_execution_changes"); (Some Deneb, Part "bls_to_execution_changes")];
  (* 583 *) mkRow "bls_to_execution_changes_mut" true [(Some Phase0, Nothing); (Some Altair, Nothing); (Some Bellatrix, Nothing); (Some Capella, Part "bls_to_execution_changes"); (Some Deneb, Part "bls_to_execution_changes")];
  (* 594 *) mkRow "blob_kzg_commitments" false [(Some Phase0, Nothing); (Some Altair, Nothing); (Some Bellatrix, Nothing); (Some Capella, Nothing); (Some Deneb, Part "blob_kzg_commitments")];
  (* 605 *) mkRow "blob_kzg_commitments_mut" true [(Some Phase0, Nothing); (Some Altair, Nothing); (Some Bellatrix, Nothing); (Some Capella, Nothing); (Some Deneb, Part "blob_kzg_commitments")]].
(** types/beacon_block_body.rs, BeaconBlockBodyRef *)
Definition KBody_Shared : list row := [
  (* 799 *) mkRow "phase0" false [(Some Phase0, Whole); (None, Nothing)];
  (* 816 *) mkRow "altair" false [(Some Altair, Whole); (None, Nothing)];
  (* 834 *) mkRow "bellatrix" false [(Some Bellatrix, Whole); (None, Nothing)];
  (* 856 *) mkRow "capella" false [(Some Capella, Whole); (None, Nothing)];
  (* 880 *) mkRow "deneb" false [(Some Deneb, Whole); (None, Nothing)];
  (* 905 *) mkRow "version" false [(Some Phase0, Version Phase0); (Some Altair, Version Altair); (Some Bellatrix, Version Bellatrix); (Some Capella, Version Capella); (Some Deneb, Version Deneb)];
  (* 914 *) mkRow "randao_reveal" false [(Some Phase0, Part "randao_reveal"); (Some Altair, Part "randao_reveal"); (Some Bellatrix, Part "randao_reveal"); (Some Capella, Part "randao_reveal"); (Some Deneb, Part "randao_reveal")];
  (* 923 *) mkRow "eth1_data" false [(Some Phase0, Part "eth1_data"); (Some Altair, Part "eth1_data"); (Some Bellatrix, Part "eth1_data"); (Some Capella, Part "eth1_data"); (Some Deneb, Part "eth1_data")];
  (* 932 *) mkRow "graffiti" false [(Some Phase0, Part "graffiti"); (Some Altair, Part "graffiti"); (Some Bellatrix, Part "graffiti"); (Some Capella, Part "graffiti"); (Some Deneb, Part "graffiti")];
  (* 941 *) mkRow "proposer_slashings" false [(Some Phase0, Part "proposer_slashings"); (Some Altair, Part "proposer_slashings"); (Some Bellatrix, Part "proposer_slashings"); (Some Capella, Part "proposer_slashings"); (Some Deneb, Part "proposer_slashings")];
  (* 950 *) mkRow "attester_slashings" false [(Some Phase0, Part "attester_slashings"); (Some Altair, Part "attester_slashings"); (Some Bellatrix, Part "attester_slashings"); (Some Capella, Part "attester_slashings"); (Some Deneb, Part "attester_slashings")];
  (* 961 *) mkRow "attestations" false [(Some Phase0, Part "attestations"); (Some Altair, Part "attestations"); (Some Bellatrix, Part "attestations"); (Some Capella, Part "attestations"); (Some Deneb, Part "attestations")];
  (* 972 *) mkRow "deposits" false [(Some Phase0, Part "deposits"); (Some Altair, Part "deposits"); (Some Bellatrix, Part "deposits"); (Some Capella, Part "deposits"); (Some Deneb, Part "deposits")];
  (* 981 *) mkRow "voluntary_exits" false [(Some Phase0, Part "voluntary_exits"); (Some Altair, Part "voluntary_exits"); (Some Bellatrix, Part "voluntary_exits"); (Some Capella, Part "voluntary_exits"); (Some Deneb, Part "voluntary_exits")];
  (* 990 *) mkRow "sync_aggregate" false [(Some Phase0, Nothing); (Some Altair, Part "sync_aggregate"); (Some Bellatrix, Part "sync_aggregate"); (Some Capella, Part "sync_aggregate"); (Some Deneb, Part "sync_aggregate")];
  (* 999 *) mkRow "execution_payload" false [(Some Phase0, Nothing); (Some Altair, Nothing); (Some Bellatrix, Wrapped "execution_payload"); (Some Capella, Wrapped "execution_payload"); (Some Deneb, Wrapped "execution_payload")];
  (* 1018 *) mkRow "bls_to_execution_changes" false [(Some Phase0, Nothing); (Some Altair, Nothing); (Some Bellatrix, Nothing); (Some Capella, Part "bls_to_execution_changes"); (Some Deneb, Part "bls_to_execution_changes")];
  (* 1029 *) mkRow "blob_kzg_commitments" false [(Some Phase0, Nothing); (Some Altair, Nothing); (Some Bellatrix, Nothing); (Some Capella, Nothing); (Some Deneb, Part "blob_kzg_commitments")]].
(** types/beacon_block_body.rs, BeaconBlockBodyRefMut *)
Definition KBody_Exclusive : list row := [
  (* 1498 *) mkRow "phase0" false [(Some Phase0, Whole); (None, Nothing)];
  (* 1515 *) mkRow "phase0_mut" true [(Some Phase0, Whole); (None, Nothing)];
  (* 1532 *) mkRow "altair" false [(Some Altair, Whole); (None, Nothing)];
  (* 1550 *) mkRow "altair_mut" true [(Some Altair, Whole); (None, Nothing)];
  (* 1568 *) mkRow "bellatrix" false [(Some Bellatrix, Whole); (None, Nothing)];
  (* 1590 *) mkRow "bellatrix_mut" true [(Some Bellatrix, Whole); (None, Nothing)];
  (* 1612 *) mkRow "capella" false [(Some Capella, Whole); (None, Nothing)];
  (* 1636 *) mkRow "capella_mut" true [(Some Capella, Whole); (None, Nothing)];
  (* 1660 *) mkRow "deneb" false [(Some Deneb, Whole); (None, Nothing)];
  (* 1685 *) mkRow "deneb_mut" true [(Some Deneb, Whole); (None, Nothing)];
  (* 1710 *) mkRow "version" false [(Some Phase0, Version Phase0); (Some Altair, Version Altair); (Some Bellatrix, Version Bellatrix); (Some Capella, Version Capella); (Some Deneb, Version Deneb)];
  (* 1719 *) mkRow "randao_reveal" false [(Some Phase0, Part "randao_reveal"); (Some Altair, Part "randao_reveal"); (Some Bellatrix, Part "randao_reveal"); (Some Capella, Part "randao_reveal"); (Some Deneb, Part "randao_reveal")];
  (* 1728 *) mkRow "randao_reveal_mut" true [(Some Phase0, Part "randao_reveal"); (Some Altair, Part "randao_reveal"); (Some Bellatrix, Part "randao_reveal"); (Some Capella, Part "randao_reveal"); (Some Deneb, Part "randao_reveal")];
  (* 1737 *) mkRow "eth1_data" false [(Some Phase0, Part "eth1_data"); (Some Altair, Part "eth1_data"); (Some Bellatrix, Part "eth1_data"); (Some Capella, Part "eth1_data"); (Some Deneb, Part "eth1_data")];
  (* 1746 *) mkRow "eth1_data_mut" true [(Some Phase0, Part "eth1_data"); (Some Altair, Part "eth1_data"); (Some Bellatrix, Part "eth1_data"); (Some Capella, Part "eth1_data"); (Some Deneb, Part "eth1_data")];
  (* 1755 *) mkRow "graffiti" false [(Some Phase0, Part "graffiti"); (Some Altair, Part "graffiti"); (Some Bellatrix, Part "graffiti"); (Some Capella, Part "graffiti"); (Some Deneb, Part "graffiti")];
  (* 1764 *) mkRow "graffiti_mut" true [(Some Phase0, Part "graffiti"); (Some Altair, Part "graffiti"); (Some Bellatrix, Part "graffiti"); (Some Capella, Part "graffiti"); (Some Deneb, Part "graffiti")];
  (* 1773 *) mkRow "proposer_slashings" false [(Some Phase0, Part "proposer_slashings"); (Some Altair, Part "proposer_slashings"); (Some Bellatrix, Part "proposer_slashings"); (Some Capella, Part "proposer_slashings"); (Some Deneb, Part "proposer_slashings")];
  (* 1782 *) mkRow "proposer_slashings_mut" true [(Some Phase0, Part "proposer_slashings"); (Some Altair, Part "proposer_slashings"); (Some Bellatrix, Part "proposer_slashings"); (Some Capella, Part "proposer_slashings"); (Some Deneb, Part "proposer_slashings")];
  (* 1793 *) mkRow "attester_slashings" false [(Some Phase0, Part "attester_slashings"); (Some Altair, Part "attester_slashings"); (Some Bellatrix, Part "attester_slashings"); (Some Capella, Part "attester_slashings"); (Some Deneb, Part "attester_slashings")];
  (* 1804 *) mkRow "attester_slashings_mut" true [(Some Phase0, Part "attester_slashings"); (Some Altair, Part "attester_slashings"); (Some Bellatrix, Part "attester_slashings"); (Some Capella, Part "attester_slashings"); (Some Deneb, Part "attester_slashings")];
  (* 1815 *) mkRow "attestations" false [(Some Phase0, Part "attestations"); (Some Altair, Part "attestations"); (Some Bellatrix, Part "attestations"); (Some Capella, Part "attestations"); (Some Deneb, Part "attestations")];
  (* 1826 *) mkRow "attestations_mut" true [(Some Phase0, Part "attestations"); (Some Altair, Part "attestations"); (Some Bellatrix, Part "attestations"); (Some Capella, Part "attestations"); (Some Deneb, Part "attestations")];
  (* 1837 *) mkRow "deposits" false [(Some Phase0, Part "deposits"); (Some Altair, Part "deposits"); (Some Bellatrix, Part "deposits"); (Some Capella, Part "deposits"); (Some Deneb, Part "deposits")];
  (* 1846 *) mkRow "deposits_mut" true [(Some Phase0, Part "deposits"); (Some Altair, Part "deposits"); (Some Bellatrix, Part "deposits"); (Some Capella, Part "deposits"); (Some Deneb, Part "deposits")];
  (* 1855 *) mkRow "voluntary_exits" false [(Some Phase0, Part "voluntary_exits"); (Some Altair, Part "voluntary_exits"); (Some Bellatrix, Part "voluntary_exits"); (Some Capella, Part "voluntary_exits"); (Some Deneb, Part "voluntary_exits")];
  (* 1864 *) mkRow "voluntary_exits_mut" true [(Some Phase0, Part "voluntary_exits"); (Some Altair, Part "voluntary_exits"); (Some Bellatrix, Part "voluntary_exits"); (Some Capella, Part "voluntary_exits"); (Some Deneb, Part "voluntary_exits")];
  (* 1873 *) mkRow "sync_aggregate" false [(Some Phase0, Nothing); (Some Altair, Part "sync_aggregate"); (Some Bellatrix, Part "sync_aggregate"); (Some Capella, Part "sync_aggregate"); (Some Deneb, Part "sync_aggregate")];
  (* 1882 *) mkRow "sync_aggregate_mut" true [(Some Phase0, Nothing); (Some Altair, Part "sync_aggregate"); (Some Bellatrix, Part "sync_aggregate"); (Some Capella, Part "sync_aggregate"); (Some Deneb, Part "sync_aggregate")];
  (* 1891 *) mkRow "execution_payload" false [(Some Phase0, Nothing); (Some Altair, Nothing); (Some Bellatrix, Wrapped "execution_payload"); (Some Capella, Wrapped "execution_payload"); (Some Deneb, Wrapped "execution_payload")];
  (* 1910 *) mkRow "execution_payload_mut" true [(Some Phase0, Nothing); (Some Altair, Nothing); (Some Bellatrix, Wrapped "execution_payload"); (Some Capella, Wrapped "execution_payload"); (Some Deneb, Wrapped "execution_payload")];
  (* 1929 *) mkRow "bls_to_execution_changes" false [(Some Phase0, Nothing); (Some Altair, Nothing); (Some Bellatrix, Nothing); (Some Capella, Part "bls_to_execution_changes"); (Some Deneb, Part "bls_to_execution_changes")];
  (* 1940 *) mkRow "bls_to_execution_changes_mut" true [(Some Phase0, Nothing); (Some Altair, Nothing); (Some Bellatrix, Nothing); (Some Capella, Part "bls_to_execution_changes"); (Some Deneb, Part "bls_to_execution_changes")];
  (* 1951 *) mkRow "blob_kzg_commitments" false [(Some Phase0, Nothing); (Some Altair, Nothing); (Some Bellatrix, Nothing); (Some Capella, Nothing); (Some Deneb, Part "blob_kzg_commitments")];
  (* 1962 *) mkRow "blob_kzg_commitments_mut" true [(Some Phase0, Nothing); (Some Altair, Nothing); (Some Bellatrix, Nothing); (Some Capella, Nothing); (Some Deneb, Part "blob_kzg_commitments")]].
(** types/beacon_block.rs, BeaconBlock *)
Definition KBlock_Owned : list row := [
  (* 137 *) mkRow "phase0" false [(Some Phase0, Whole); (None, Nothing)];
  (* 154 *) mkRow "phase0_mut" true [(Some Phase0, Whole); (None, Nothing)];
  (* 171 *) mkRow "altair" false [(Some Altair, Whole); (None, Nothing)];
  (* 189 *) mkRow "altair_mut" true [(Some Altair, Whole); (None, Nothing)];
  (* 207 *) mkRow "bellatrix" false [(Some Bellatrix, Whole); (None, Nothing)];
  (* 229 *) mkRow "bellatrix_mut" true [(Some Bellatrix, Whole); (None, Nothing)];
  (* 251 *) mkRow "capella" false [(Some Capella, Whole); (None, Nothing)];
  (* 275 *) mkRow "capella_mut" true [(Some Capella, Whole); (None, Nothing)];
  (* 299 *) mkRow "deneb" false [(Some Deneb, Whole); (None, Nothing)];
  (* 324 *) mkRow "deneb_mut" true [(Some Deneb, Whole); (None, Nothing)];
  (* 349 *) mkRow "version" false [(Some Phase0, Version Phase0); (Some Altair, Version Altair); (Some Bellatrix, Version Bellatrix); (Some Capella, Version Capella); (Some Deneb, Version Deneb)];
  (* 358 *) mkRow "slot" false [(Some Phase0, Part "slot"); (Some Altair, Part "slot"); (Some Bellatrix, Part "slot"); (Some Capella, Part "slot"); (Some Deneb, Part "slot")];
  (* 367 *) mkRow "slot_mut" true [(Some Phase0, Part "slot"); (Some Altair, Part "slot"); (Some Bellatrix, Part "slot"); (Some Capella, Part "slot"); (Some Deneb, Part "slot")];
  (* 376 *) mkRow "proposer_index" false [(Some Phase0, Part "proposer_index"); (Some Altair, Part "proposer_index"); (Some Bellatrix, Part "proposer_index"); (Some Capella, Part "proposer_index"); (Some Deneb, Part "proposer_index")];
  (* 385 *) mkRow "proposer_index_mut" true [(Some Phase0, Part "proposer_index"); (Some Altair, Part "proposer_index"); (Some Bellatrix, Part "proposer_index"); (Some Capella, Part "proposer_index"); (Some Deneb, Part "proposer_index")];
  (* 394 *) mkRow "parent_root" false [(Some Phase0, Part "parent_root"); (Some Altair, Part "parent_root"); (Some Bellatrix, Part "parent_root"); (Some Capella, Part "parent_root"); (Some Deneb, Part "parent_root")];
  (* 403 *) mkRow "parent_root_mut" true [(Some Phase0, Part "parent_root"); (Some Altair, Part "parent_root"); (Some Bellatrix, Part "parent_root"); (Some Capella, Part "parent_root"); (Some Deneb, Part "parent_root")];
  (* 412 *) mkRow "state_root" false [(Some Phase0, Part "state_root"); (Some Altair, Part "state_root"); (Some Bellatrix, Part "state_root"); (Some Capella, Part "state_root"); (Some Deneb, Part "state_root")];
  (* 421 *) mkRow "state_root_mut" true [(Some Phase0, Part "state_root"); (Some Altair, Part "state_root"); (Some Bellatrix, Part "state_root"); (Some Capella, Part "state_root"); (Some Deneb, Part "state_root")];
  (* 430 *) mkRow "body" false [(Some Phase0, Wrapped "body"); (Some Altair, Wrapped "body"); (Some Bellatrix, Wrapped "body"); (Some Capella, Wrapped "body"); (Some Deneb, Wrapped "body")];
  (* 456 *) mkRow "body_mut" true [(Some Phase0, Wrapped "body"); (Some Altair, Wrapped "body"); (Some Bellatrix, Wrapped "body"); (Some Capella, Wrapped "body"); (Some Deneb, Wrapped "body")]].
(** types/beacon_block.rs, BeaconBlockRef *)
Definition KBlock_Shared : list row := [
  (* 665 *) mkRow "phase0" false [(Some Phase0, Whole); (None, Nothing)];
  (* 682 *) mkRow "altair" false [(Some Altair, Whole); (None, Nothing)];
  (* 700 *) mkRow "bellatrix" false [(Some Bellatrix, Whole); (None, Nothing)];
  (* 722 *) mkRow "capella" false [(Some Capella, Whole); (None, Nothing)];
  (* 746 *) mkRow "deneb" false [(Some Deneb, Whole); (None, Nothing)];
  (* 771 *) mkRow "version" false [(Some Phase0, Version Phase0); (Some Altair, Version Altair); (Some Bellatrix, Version Bellatrix); (Some Capella, Version Capella); (Some Deneb, Version Deneb)];
  (* 780 *) mkRow "slot" false [(Some Phase0, Part "slot"); (Some Altair, Part "slot"); (Some Bellatrix, Part "slot"); (Some Capella, Part "slot"); (Some Deneb, Part "slot")];
  (* 789 *) mkRow "proposer_index" false [(Some Phase0, Part "proposer_index"); (Some Altair, Part "proposer_index"); (Some Bellatrix, Part "proposer_index"); (Some Capella, Part "proposer_index"); (Some Deneb, Part "proposer_index")];
  (* 798 *) mkRow "parent_root" false [(Some Phase0, Part "parent_root"); (Some Altair, Part "parent_root"); (Some Bellatrix, Part "parent_root"); (Some Capella, Part "parent_root"); (Some Deneb, Part "parent_root")];
  (* 807 *) mkRow "state_root" false [(Some Phase0, Part "state_root"); (Some Altair, Part "state_root"); (Some Bellatrix, Part "state_root"); (Some Capella, Part "state_root"); (Some Deneb, Part "state_root")];
  (* 816 *) mkRow "body" false [(Some Phase0, Wrapped "body"); (Some Altair, Wrapped "body"); (Some Bellatrix, Wrapped "body"); (Some Capella, Wrapped "body"); (Some Deneb, Wrapped "body")]].
(** types/beacon_block.rs, BeaconBlockRefMut *)
Definition KBlock_Exclusive : list row := [
  (* 1300 *) mkRow "phase0" false [(Some Phase0, Whole); (None, Nothing)];
  (* 1317 *) mkRow "phase0_mut" true [(Some Phase0, Whole); (None, Nothing)];
  (* 1334 *) mkRow "altair" false [(Some Altair, Whole); (None, Nothing)];
  (* 1352 *) mkRow "altair_mut" true [(Some Altair, Whole); (None, Nothing)];
  (* 1370 *) mkRow "bellatrix" false [(Some Bellatrix, Whole); (None, Nothing)];
  (* 1392 *) mkRow "bellatrix_mut" true [(Some Bellatrix, Whole); (None, Nothing)];
  (* 1414 *) mkRow "capella" false [(Some Capella, Whole); (None, Nothing)];
  (* 1438 *) mkRow "capella_mut" true [(Some Capella, Whole); (None, Nothing)];
  (* 1462 *) mkRow "deneb" false [(Some Deneb, Whole); (None, Nothing)];
  (* 1487 *) mkRow "deneb_mut" true [(Some Deneb, Whole); (None, Nothing)];
  (* 1512 *) mkRow "version" false [(Some Phase0, Version Phase0); (Some Altair, Version Altair); (Some Bellatrix, Version Bellatrix); (Some Capella, Version Capella); (Some Deneb, Version Deneb)];
  (* 1521 *) mkRow "slot" false [(Some Phase0, Part "slot"); (Some Altair, Part "slot"); (Some Bellatrix, Part "slot"); (Some Capella, Part "slot"); (Some Deneb, Part "slot")];
  (* 1530 *) mkRow "slot_mut" true [(Some Phase0, Part "slot"); (Some Altair, Part "slot"); (Some Bellatrix, Part "slot"); (Some Capella, Part "slot"); (Some Deneb, Part "slot")];
  (* 1539 *) mkRow "proposer_index" false [(Some Phase0, Part "proposer_index"); (Some Altair, Part "proposer_index"); (Some Bellatrix, Part "proposer_index"); (Some Capella, Part "proposer_index"); (Some Deneb, Part "proposer_index")];
  (* 1548 *) mkRow "proposer_index_mut" true [(Some Phase0, Part "proposer_index"); (Some Altair, Part "proposer_index"); (Some Bellatrix, Part "proposer_index"); (Some Capella, Part "proposer_index"); (Some Deneb, Part "proposer_index")];
  (* 1557 *) mkRow "parent_root" false [(Some Phase0, Part "parent_root"); (Some Altair, Part "parent_root"); (Some Bellatrix, Part "parent_root"); (Some Capella, Part "parent_root"); (Some Deneb, Part "parent_root")];
  (* 1566 *) mkRow "parent_root_mut" true [(Some Phase0, Part "parent_root"); (Some Altair, Part "parent_root"); (Some Bellatrix, Part "parent_root"); (Some Capella, Part "parent_root"); (Some Deneb, Part "parent_root")];
  (* 1575 *) mkRow "state_root" false [(Some Phase0, Part "state_root"); (Some Altair, Part "state_root"); (Some Bellatrix, Part "state_root"); (Some Capella, Part "state_root"); (Some Deneb, Part "state_root")];
  (* 1584 *) mkRow "state_root_mut" true [(Some Phase0, Part "state_root"); (Some Altair, Part "state_root"); (Some Bellatrix, Part "state_root"); (Some Capella, Part "state_root"); (Some Deneb, Part "state_root")];
  (* 1593 *) mkRow "body" false [(Some Phase0, Wrapped "body"); (Some Altair, Wrapped "body"); (Some Bellatrix, Wrapped "body"); (Some Capella, Wrapped "body"); (Some Deneb, Wrapped "body")];
  (* 1619 *) mkRow "body_mut" true [(Some Phase0, Wrapped "body"); (Some Altair, Wrapped "body"); (Some Bellatrix, Wrapped "body"); (Some Capella, Wrapped "body"); (Some Deneb, Wrapped "body")]].
(** types/signed_beacon_block.rs, SignedBeaconBlock *)
Definition KSignedBlock_Owned : list row := [
  (* 137 *) mkRow "phase0" false [(Some Phase0, Whole); (None, Nothing)];
  (* 154 *) mkRow "phase0_mut" true [(Some Phase0, Whole); (None, Nothing)];
  (* 171 *) mkRow "altair" false [(Some Altair, Whole); (None, Nothing)];
  (* 189 *) mkRow "altair_mut" true [(Some Altair, Whole); (None, Nothing)];
  (* 207 *) mkRow "bellatrix" false [(Some Bellatrix, Whole); (None, Nothing)];
  (* 229 *) mkRow "bellatrix_mut" true [(Some Bellatrix, Whole); (None, Nothing)];
  (* 251 *) mkRow "capella" false [(Some Capella, Whole); (None, Nothing)];
  (* 275 *) mkRow "capella_mut" true [(Some Capella, Whole); (None, Nothing)];
  (* 299 *) mkRow "deneb" false [(Some Deneb, Whole); (None, Nothing)];
  (* 324 *) mkRow "deneb_mut" true [(Some Deneb, Whole); (None, Nothing)];
  (* 349 *) mkRow "version" false [(Some Phase0, Version Phase0); (Some Altair, Version Altair); (Some Bellatrix, Version Bellatrix); (Some Capella, Version Capella); (Some Deneb, Version Deneb)];
  (* 358 *) mkRow "message" false [(Some Phase0, Wrapped "message"); (Some Altair, Wrapped "message"); (Some Bellatrix, Wrapped "message"); (Some Capella, Wrapped "message"); (Some Deneb, Wrapped "message")];
  (* 384 *) mkRow "message_mut" true [(Some Phase0, Wrapped "message"); (Some Altair, Wrapped "message"); (Some Bellatrix, Wrapped "message"); (Some Capella, Wrapped "message"); (Some Deneb, Wrapped "message")];
  (* 410 *) mkRow "signature" false [(Some Phase0, Part "signature"); (Some Altair, Part "signature"); (Some Bellatrix, Part "signature"); (Some Capella, Part "signature"); (Some Deneb, Part "signature")];
  (* 419 *) mkRow "signature_mut" true [(Some Phase0, Part "signature"); (Some Altair, Part "signature"); (Some Bellatrix, Part "signature"); (Some Capella, Part "signature"); (Some Deneb, Part "signature")]].
(** types/execution_payload.rs, ExecutionPayload *)
Definition KPayload_Owned : list row := [
  (* 62 *) mkRow "bellatrix" false [(Some Bellatrix, Whole); (None, Nothing)];
  (* 77 *) mkRow "bellatrix_mut" true [(Some Bellatrix, Whole); (None, Nothing)];
  (* 92 *) mkRow "capella" false [(Some Capella, Whole); (None, Nothing)];
  (* 108 *) mkRow "capella_mut" true [(Some Capella, Whole); (None, Nothing)];
  (* 124 *) mkRow "deneb" false [(Some Deneb, Whole); (None, Nothing)];
  (* 140 *) mkRow "deneb_mut" true [(Some Deneb, Whole); (None, Nothing)];
  (* 156 *) mkRow "version" false [(Some Bellatrix, Version Bellatrix); (Some Capella, Version Capella); (Some Deneb, Version Deneb)];
  (* 163 *) mkRow "parent_hash" false [(Some Bellatrix, Part "parent_hash"); (Some Capella, Part "parent_hash"); (Some Deneb, Part "parent_hash")];
  (* 170 *) mkRow "parent_hash_mut" true [(Some Bellatrix, Part "parent_hash"); (Some Capella, Part "parent_hash"); (Some Deneb, Part "parent_hash")];
  (* 177 *) mkRow "fee_recipient" false [(Some Bellatrix, Part "fee_recipient"); (Some Capella, Part "fee_recipient"); (Some Deneb, Part "fee_recipient")];
  (* 184 *) mkRow "fee_recipient_mut" true [(Some Bellatrix, Part "fee_recipient"); (Some Capella, Part "fee_recipient"); (Some Deneb, Part "fee_recipient")];
  (* 191 *) mkRow "state_root" false [(Some Bellatrix, Part "state_root"); (Some Capella, Part "state_root"); (Some Deneb, Part "state_root")];
  (* 198 *) mkRow "state_root_mut" true [(Some Bellatrix, Part "state_root"); (Some Capella, Part "state_root"); (Some Deneb, Part "state_root")];
  (* 205 *) mkRow "receipts_root" false [(Some Bellatrix, Part "receipts_root"); (Some Capella, Part "receipts_root"); (Some Deneb, Part "receipts_root")];
  (* 212 *) mkRow "receipts_root_mut" true [(Some Bellatrix, Part "receipts_root"); (Some Capella, Part "receipts_root"); (Some Deneb, Part "receipts_root")];
  (* 219 *) mkRow "logs_bloom" false [(Some Bellatrix, Part "logs_bloom"); (Some Capella, Part "logs_bloom"); (Some Deneb, Part "logs_bloom")];
  (* 226 *) mkRow "logs_bloom_mut" true [(Some Bellatrix, Part "logs_bloom"); (Some Capella, Part "logs_bloom"); (Some Deneb, Part "logs_bloom")];
  (* 233 *) mkRow "prev_randao" false [(Some Bellatrix, Part "prev_randao"); (Some Capella, Part "prev_randao"); (Some Deneb, Part "prev_randao")];
  (* 240 *) mkRow "prev_randao_mut" true [(Some Bellatrix, Part "prev_randao"); (Some Capella, Part "prev_randao"); (Some Deneb, Part "prev_randao")];
  (* 247 *) mkRow "block_number" false [(Some Bellatrix, Part "block_number"); (Some Capella, Part "block_number"); (Some Deneb, Part "block_number")];
  (* 254 *) mkRow "block_number_mut" true [(Some Bellatrix, Part "block_number"); (Some Capella, Part "block_number"); (Some Deneb, Part "block_number")];
  (* 261 *) mkRow "gas_limit" false [(Some Bellatrix, Part "gas_limit"); (Some Capella, Part "gas_limit"); (Some Deneb, Part "gas_limit")];
  (* 268 *) mkRow "gas_limit_mut" true [(Some Bellatrix, Part "gas_limit"); (Some Capella, Part "gas_limit"); (Some Deneb, Part "gas_limit")];
  (* 275 *) mkRow "gas_used" false [(Some Bellatrix, Part "gas_used"); (Some Capella, Part "gas_used"); (Some Deneb, Part "gas_used")];
  (* 282 *) mkRow "gas_used_mut" true [(Some Bellatrix, Part "gas_used"); (Some Capella, Part "gas_used"); (Some Deneb, Part "gas_used")];
  (* 289 *) mkRow "timestamp" false [(Some Bellatrix, Part "timestamp"); (Some Capella, Part "timestamp"); (Some Deneb, Part "timestamp")];
  (* 296 *) mkRow "timestamp_mut" true [(Some Bellatrix, Part "timestamp"); (Some Capella, Part "timestamp"); (Some Deneb, Part "timestamp")];
  (* 303 *) mkRow "extra_data" false [(Some Bellatrix, Part "extra_data"); (Some Capella, Part "extra_data"); (Some Deneb, Part "extra_data")];
  (* 310 *) mkRow "extra_data_mut" true [(Some Bellatrix, Part "extra_data"); (Some Capella, Part "extra_data"); (Some Deneb, Part "extra_data")];
  (* 317 *) mkRow "base_fee_per_gas" false [(Some Bellatrix, Part "base_fee_per_gas"); (Some Capella, Part "base_fee_per_gas"); (Some Deneb, Part "base_fee_per_gas")];
  (* 324 *) mkRow "base_fee_per_gas_mut" true [(Some Bellatrix, Part "base_fee_per_gas"); (Some Capella, Part "base_fee_per_gas"); (Some Deneb, Part "base_fee_per_gas")];
  (* 331 *) mkRow "block_hash" false [(Some Bellatrix, Part "block_hash"); (Some Capella, Part "block_hash"); (Some Deneb, Part "block_hash")];
  (* 338 *) mkRow "block_hash_mut" true [(Some Bellatrix, Part "block_hash"); (Some Capella, Part "block_hash"); (Some Deneb, Part "block_hash")];
  (* 345 *) mkRow "transactions" false [(Some Bellatrix, Part "transactions"); (Some Capella, Part "transactions"); (Some Deneb, Part "transactions")];
  (* 354 *) mkRow "transactions_mut" true [(Some Bellatrix, Part "transactions"); (Some Capella, Part "transactions"); (Some Deneb, Part "transactions")];
  (* 363 *) mkRow "withdrawals" false [(Some Bellatrix, Nothing); (Some Capella, Part "withdrawals"); (Some Deneb, Part "withdrawals")];
  (* 370 *) mkRow "withdrawals_mut" true [(Some Bellatrix, Nothing); (Some Capella, Part "withdrawals"); (Some Deneb, Part "withdrawals")];
  (* 379 *) mkRow "blob_gas_used" false [(Some Bellatrix, Nothing); (Some Capella, Nothing); (Some Deneb, Part "blob_gas_used")];
  (* 386 *) mkRow "blob_gas_used_mut" true [(Some Bellatrix, Nothing); (Some Capella, Nothing); (Some Deneb, Part "blob_gas_used")];
  (* 393 *) mkRow "excess_blob_gas" false [(Some Bellatrix, Nothing); (Some Capella, Nothing); (Some Deneb, Part "excess_blob_gas")];
  (* 400 *) mkRow "excess_blob_gas_mut" true [(Some Bellatrix, Nothing); (Some Capella, Nothing); (Some Deneb, Part "excess_blob_gas")]].
(** types/execution_payload.rs, ExecutionPayloadRef *)
Definition KPayload_Shared : list row := [
  (* 494 *) mkRow "bellatrix" false [(Some Bellatrix, Whole); (None, Nothing)];
  (* 509 *) mkRow "capella" false [(Some Capella, Whole); (None, Nothing)];
  (* 525 *) mkRow "deneb" false [(Some Deneb, Whole); (None, Nothing)];
  (* 541 *) mkRow "version" false [(Some Bellatrix, Version Bellatrix); (Some Capella, Version Capella); (Some Deneb, Version Deneb)];
  (* 548 *) mkRow "parent_hash" false [(Some Bellatrix, Part "parent_hash"); (Some Capella, Part "parent_hash"); (Some Deneb, Part "parent_hash")];
  (* 555 *) mkRow "fee_recipient" false [(Some Bellatrix, Part "fee_recipient"); (Some Capella, Part "fee_recipient"); (Some Deneb, Part "fee_recipient")];
  (* 562 *) mkRow "state_root" false [(Some Bellatrix, Part "state_root"); (Some Capella, Part "state_root"); (Some Deneb, Part "state_root")];
  (* 569 *) mkRow "receipts_root" false [(Some Bellatrix, Part "receipts_root"); (Some Capella, Part "receipts_root"); (Some Deneb, Part "receipts_root")];
  (* 576 *) mkRow "logs_bloom" false [(Some Bellatrix, Part "logs_bloom"); (Some Capella, Part "logs_bloom"); (Some Deneb, Part "logs_bloom")];
  (* 583 *) mkRow "prev_randao" false [(Some Bellatrix, Part "prev_randao"); (Some Capella, Part "prev_randao"); (Some Deneb, Part "prev_randao")];
  (* 590 *) mkRow "block_number" false [(Some Bellatrix, Part "block_number"); (Some Capella, Part "block_number"); (Some Deneb, Part "block_number")];
  (* 597 *) mkRow "gas_limit" false [(Some Bellatrix, Part "gas_limit"); (Some Capella, Part "gas_limit"); (Some Deneb, Part "gas_limit")];
  (* 604 *) mkRow "gas_used" false [(Some Bellatrix, Part "gas_used"); (Some Capella, Part "gas_used"); (Some Deneb, Part "gas_used")];
  (* 611 *) mkRow "timestamp" false [(Some Bellatrix, Part "timestamp"); (Some Capella, Part "timestamp"); (Some Deneb, Part "timestamp")];
  (* 618 *) mkRow "extra_data" false [(Some Bellatrix, Part "extra_data"); (Some Capella, Part "extra_data"); (Some Deneb, Part "extra_data")];
  (* 625 *) mkRow "base_fee_per_gas" false [(Some Bellatrix, Part "base_fee_per_gas"); (Some Capella, Part "base_fee_per_gas"); (Some Deneb, Part "base_fee_per_gas")];
  (* 632 *) mkRow "block_hash" false [(Some Bellatrix, Part "block_hash"); (Some Capella, Part "block_hash"); (Some Deneb, Part "block_hash")];
  (* 639 *) mkRow "transactions" false [(Some Bellatrix, Part "transactions"); (Some Capella, Part "transactions"); (Some Deneb, Part "transactions")];
  (* 648 *) mkRow "withdrawals" false [(Some Bellatrix, Nothing); (Some Capella, Part "withdrawals"); (Some Deneb, Part "withdrawals")];
  (* 655 *) mkRow "blob_gas_used" false [(Some Bellatrix, Nothing); (Some Capella, Nothing); (Some Deneb, Part "blob_gas_used")];
  (* 662 *) mkRow "excess_blob_gas" false [(Some Bellatrix, Nothing); (Some Capella, Nothing); (Some Deneb, Part "excess_blob_gas")]].
(** types/execution_payload.rs, ExecutionPayloadRefMut *)
Definition KPayload_Exclusive : list row := [
  (* 835 *) mkRow "bellatrix" false [(Some Bellatrix, Whole); (None, Nothing)];
  (* 850 *) mkRow "bellatrix_mut" true [(Some Bellatrix, Whole); (None, Nothing)];
  (* 865 *) mkRow "capella" false [(Some Capella, Whole); (None, Nothing)];
  (* 881 *) mkRow "capella_mut" true [(Some Capella, Whole); (None, Nothing)];
  (* 897 *) mkRow "deneb" false [(Some Deneb, Whole); (None, Nothing)];
  (* 913 *) mkRow "deneb_mut" true [(Some Deneb, Whole); (None, Nothing)];
  (* 929 *) mkRow "version" false [(Some Bellatrix, Version Bellatrix); (Some Capella, Version Capella); (Some Deneb, Version Deneb)];
  (* 936 *) mkRow "parent_hash" false [(Some Bellatrix, Part "parent_hash"); (Some Capella, Part "parent_hash"); (Some Deneb, Part "parent_hash")];
  (* 943 *) mkRow "parent_hash_mut" true [(Some Bellatrix, Part "parent_hash"); (Some Capella, Part "parent_hash"); (Some Deneb, Part "parent_hash")];
  (* 950 *) mkRow "fee_recipient" false [(Some Bellatrix, Part "fee_recipient"); (Some Capella, Part "fee_recipient"); (Some Deneb, Part "fee_recipient")];
  (* 957 *) mkRow "fee_recipient_mut" true [(Some Bellatrix, Part "fee_recipient"); (Some Capella, Part "fee_recipient"); (Some Deneb, Part "fee_recipient")];
  (* 964 *) mkRow "state_root" false [(Some Bellatrix, Part "state_root"); (Some Capella, Part "state_root"); (Some Deneb, Part "state_root")];
  (* 971 *) mkRow "state_root_mut" true [(Some Bellatrix, Part "state_root"); (Some Capella, Part "state_root"); (Some Deneb, Part "state_root")];
  (* 978 *) mkRow "receipts_root" false [(Some Bellatrix, Part "receipts_root"); (Some Capella, Part "receipts_root"); (Some Deneb, Part "receipts_root")];
  (* 985 *) mkRow "receipts_root_mut" true [(Some Bellatrix, Part "receipts_root"); (Some Capella, Part "receipts_root"); (Some Deneb, Part "receipts_root")];
  (* 992 *) mkRow "logs_bloom" false [(Some Bellatrix, Part "logs_bloom"); (Some Capella, Part "logs_bloom"); (Some Deneb, Part "logs_bloom")];
  (* 999 *) mkRow "logs_bloom_mut" true [(Some Bellatrix, Part "logs_bloom"); (Some Capella, Part "logs_bloom"); (Some Deneb, Part "logs_bloom")];
  (* 1006 *) mkRow "prev_randao" false [(Some Bellatrix, Part "prev_randao"); (Some Capella, Part "prev_randao"); (Some Deneb, Part "prev_randao")];
  (* 1013 *) mkRow "prev_randao_mut" true [(Some Bellatrix, Part "prev_randao"); (Some Capella, Part "prev_randao"); (Some Deneb, Part "prev_randao")];
  (* 1020 *) mkRow "block_number" false [(Some Bellatrix, Part "block_number"); (Some Capella, Part "block_number"); (Some Deneb, Part "block_number")];
  (* 1027 *) mkRow "block_number_mut" true [(Some Bellatrix, Part "block_number"); (Some Capella, Part "block_number"); (Some Deneb, Part "block_number")];
  (* 1034 *) mkRow "gas_limit" false [(Some Bellatrix, Part "gas_limit"); (Some Capella, Part "gas_limit"); (Some Deneb, Part "gas_limit")];
  (* 1041 *) mkRow "gas_limit_mut" true [(Some Bellatrix, Part "gas_limit"); (Some Capella, Part "gas_limit"); (Some Deneb, Part "gas_limit")];
  (* 1048 *) mkRow "gas_used" false [(Some Bellatrix, Part "gas_used"); (Some Capella, Part "gas_used"); (Some Deneb, Part "gas_used")];
  (* 1055 *) mkRow "gas_used_mut" true [(Some Bellatrix, Part "gas_used"); (Some Capella, Part "gas_used"); (Some Deneb, Part "gas_used")];
  (* 1062 *) mkRow "timestamp" false [(Some Bellatrix, Part "timestamp"); (Some Capella, Part "timestamp"); (Some Deneb, Part "timestamp")];
  (* 1069 *) mkRow "timestamp_mut" true [(Some Bellatrix, Part "timestamp"); (Some Capella, Part "timestamp"); (Some Deneb, Part "timestamp")];
  (* 1076 *) mkRow "extra_data" false [(Some Bellatrix, Part "extra_data"); (Some Capella, Part "extra_data"); (Some Deneb, Part "extra_data")];
  (* 1083 *) mkRow "extra_data_mut" true [(Some Bellatrix, Part "extra_data"); (Some Capella, Part "extra_data"); (Some Deneb, Part "extra_data")];
  (* 1090 *) mkRow "base_fee_per_gas" false [(Some Bellatrix, Part "base_fee_per_gas"); (Some Capella, Part "base_fee_per_gas"); (Some Deneb, Part "base_fee_per_gas")];
  (* 1097 *) mkRow "base_fee_per_gas_mut" true [(Some Bellatrix, Part "base_fee_per_gas"); (Some Capella, Part "base_fee_per_gas"); (Some Deneb, Part "base_fee_per_gas")];
  (* 1104 *) mkRow "block_hash" false [(Some Bellatrix, Part "block_hash"); (Some Capella, Part "block_hash"); (Some Deneb, Part "block_hash")];
  (* 1111 *) mkRow "block_hash_mut" true [(Some Bellatrix, Part "block_hash"); (Some Capella, Part "block_hash"); (Some Deneb, Part "block_hash")];
  (* 1118 *) mkRow "transactions" false [(Some Bellatrix, Part "transactions"); (Some Capella, Part "transactions"); (Some Deneb, Part "transactions")];
  (* 1127 *) mkRow "transactions_mut" true [(Some Bellatrix, Part "transactions"); (Some Capella, Part "transactions"); (Some Deneb, Part "transactions")];
  (* 1136 *) mkRow "withdrawals" false [(Some Bellatrix, Nothing); (Some Capella, Part "withdrawals"); (Some Deneb, Part "withdrawals")];
  (* 1143 *) mkRow "withdrawals_mut" true [(Some Bellatrix, Nothing); (Some Capella, Part "withdrawals"); (Some Deneb, Part "withdrawals")];
  (* 1152 *) mkRow "blob_gas_used" false [(Some Bellatrix, Nothing); (Some Capella, Nothing); (Some Deneb, Part "blob_gas_used")];
  (* 1159 *) mkRow "blob_gas_used_mut" true [(Some Bellatrix, Nothing); (Some Capella, Nothing); (Some Deneb, Part "blob_gas_used")];
  (* 1166 *) mkRow "excess_blob_gas" false [(Some Bellatrix, Nothing); (Some Capella, Nothing); (Some Deneb, Part "excess_blob_gas")];
  (* 1173 *) mkRow "excess_blob_gas_mut" true [(Some Bellatrix, Nothing); (Some Capella, Nothing); (Some Deneb, Part "excess_blob_gas")]].
(** types/execution_payload_header.rs, ExecutionPayloadHeader *)
Definition KHeader_Owned : list row := [
  (* 24 *) mkRow "bellatrix" false [(Some Bellatrix, Whole); (None, Nothing)];
  (* 33 *) mkRow "bellatrix_mut" true [(Some Bellatrix, Whole); (None, Nothing)];
  (* 42 *) mkRow "capella" false [(Some Capella, Whole); (None, Nothing)];
  (* 50 *) mkRow "capella_mut" true [(Some Capella, Whole); (None, Nothing)];
  (* 59 *) mkRow "deneb" false [(Some Deneb, Whole); (None, Nothing)];
  (* 67 *) mkRow "deneb_mut" true [(Some Deneb, Whole); (None, Nothing)];
  (* 76 *) mkRow "version" false [(Some Bellatrix, Version Bellatrix); (Some Capella, Version Capella); (Some Deneb, Version Deneb)];
  (* 83 *) mkRow "parent_hash" false [(Some Bellatrix, Part "parent_hash"); (Some Capella, Part "parent_hash"); (Some Deneb, Part "parent_hash")];
  (* 90 *) mkRow "parent_hash_mut" true [(Some Bellatrix, Part "parent_hash"); (Some Capella, Part "parent_hash"); (Some Deneb, Part "parent_hash")];
  (* 97 *) mkRow "fee_recipient" false [(Some Bellatrix, Part "fee_recipient"); (Some Capella, Part "fee_recipient"); (Some Deneb, Part "fee_recipient")];
  (* 104 *) mkRow "fee_recipient_mut" true [(Some Bellatrix, Part "fee_recipient"); (Some Capella, Part "fee_recipient"); (Some Deneb, Part "fee_recipient")];
  (* 111 *) mkRow "state_root" false [(Some Bellatrix, Part "state_root"); (Some Capella, Part "state_root"); (Some Deneb, Part "state_root")];
  (* 118 *) mkRow "state_root_mut" true [(Some Bellatrix, Part "state_root"); (Some Capella, Part "state_root"); (Some Deneb, Part "state_root")];
  (* 125 *) mkRow "receipts_root" false [(Some Bellatrix, Part "receipts_root"); (Some Capella, Part "receipts_root"); (Some Deneb, Part "receipts_root")];
  (* 132 *) mkRow "receipts_root_mut" true [(Some Bellatrix, Part "receipts_root"); (Some Capella, Part "receipts_root"); (Some Deneb, Part "receipts_root")];
  (* 139 *) mkRow "logs_bloom" false [(Some Bellatrix, Part "logs_bloom"); (Some Capella, Part "logs_bloom"); (Some Deneb, Part "logs_bloom")];
  (* 146 *) mkRow "logs_bloom_mut" true [(Some Bellatrix, Part "logs_bloom"); (Some Capella, Part "logs_bloom"); (Some Deneb, Part "logs_bloom")];
  (* 153 *) mkRow "prev_randao" false [(Some Bellatrix, Part "prev_randao"); (Some Capella, Part "prev_randao"); (Some Deneb, Part "prev_randao")];
  (* 160 *) mkRow "prev_randao_mut" true [(Some Bellatrix, Part "prev_randao"); (Some Capella, Part "prev_randao"); (Some Deneb, Part "prev_randao")];
  (* 167 *) mkRow "block_number" false [(Some Bellatrix, Part "block_number"); (Some Capella, Part "block_number"); (Some Deneb, Part "block_number")];
  (* 174 *) mkRow "block_number_mut" true [(Some Bellatrix, Part "block_number"); (Some Capella, Part "block_number"); (Some Deneb, Part "block_number")];
  (* 181 *) mkRow "gas_limit" false [(Some Bellatrix, Part "gas_limit"); (Some Capella, Part "gas_limit"); (Some Deneb, Part "gas_limit")];
  (* 188 *) mkRow "gas_limit_mut" true [(Some Bellatrix, Part "gas_limit"); (Some Capella, Part "gas_limit"); (Some Deneb, Part "gas_limit")];
  (* 195 *) mkRow "gas_used" false [(Some Bellatrix, Part "gas_used"); (Some Capella, Part "gas_used"); (Some Deneb, Part "gas_used")];
  (* 202 *) mkRow "gas_used_mut" true [(Some Bellatrix, Part "gas_used"); (Some Capella, Part "gas_used"); (Some Deneb, Part "gas_used")];
  (* 209 *) mkRow "timestamp" false [(Some Bellatrix, Part "timestamp"); (Some Capella, Part "timestamp"); (Some Deneb, Part "timestamp")];
  (* 216 *) mkRow "timestamp_mut" true [(Some Bellatrix, Part "timestamp"); (Some Capella, Part "timestamp"); (Some Deneb, Part "timestamp")];
  (* 223 *) mkRow "extra_data" false [(Some Bellatrix, Part "extra_data"); (Some Capella, Part "extra_data"); (Some Deneb, Part "extra_data")];
  (* 230 *) mkRow "extra_data_mut" true [(Some Bellatrix, Part "extra_data"); (Some Capella, Part "extra_data"); (Some Deneb, Part "extra_data")];
  (* 237 *) mkRow "base_fee_per_gas" false [(Some Bellatrix, Part "base_fee_per_gas"); (Some Capella, Part "base_fee_per_gas"); (Some Deneb, Part "base_fee_per_gas")];
  (* 244 *) mkRow "base_fee_per_gas_mut" true [(Some Bellatrix, Part "base_fee_per_gas"); (Some Capella, Part "base_fee_per_gas"); (Some Deneb, Part "base_fee_per_gas")];
  (* 251 *) mkRow "block_hash" false [(Some Bellatrix, Part "block_hash"); (Some Capella, Part "block_hash"); (Some Deneb, Part "block_hash")];
  (* 258 *) mkRow "block_hash_mut" true [(Some Bellatrix, Part "block_hash"); (Some Capella, Part "block_hash"); (Some Deneb, Part "block_hash")];
  (* 265 *) mkRow "transactions_root" false [(Some Bellatrix, Part "transactions_root"); (Some Capella, Part "transactions_root"); (Some Deneb, Part "transactions_root")];
  (* 272 *) mkRow "transactions_root_mut" true [(Some Bellatrix, Part "transactions_root"); (Some Capella, Part "transactions_root"); (Some Deneb, Part "transactions_root")];
  (* 279 *) mkRow "withdrawals_root" false [(Some Bellatrix, Nothing); (Some Capella, Part "withdrawals_root"); (Some Deneb, Part "withdrawals_root")];
  (* 286 *) mkRow "withdrawals_root_mut" true [(Some Bellatrix, Nothing); (Some Capella, Part "withdrawals_root"); (Some Deneb, Part "withdrawals_root")];
  (* 293 *) mkRow "blob_gas_used" false [(Some Bellatrix, Nothing); (Some Capella, Nothing); (Some Deneb, Part "blob_gas_used")];
  (* 300 *) mkRow "blob_gas_used_mut" true [(Some Bellatrix, Nothing); (Some Capella, Nothing); (Some Deneb, Part "blob_gas_used")];
  (* 307 *) mkRow "excess_blob_gas" false [(Some Bellatrix, Nothing); (Some Capella, Nothing); (Some Deneb, Part "excess_blob_gas")];
  (* 314 *) mkRow "excess_blob_gas_mut" true [(Some Bellatrix, Nothing); (Some Capella, Nothing); (Some Deneb, Part "excess_blob_gas")]].
(** types/execution_payload_header.rs, ExecutionPayloadHeaderRef *)
Definition KHeader_Shared : list row := [
  (* 356 *) mkRow "bellatrix" false [(Some Bellatrix, Whole); (None, Nothing)];
  (* 365 *) mkRow "capella" false [(Some Capella, Whole); (None, Nothing)];
  (* 373 *) mkRow "deneb" false [(Some Deneb, Whole); (None, Nothing)];
  (* 381 *) mkRow "version" false [(Some Bellatrix, Version Bellatrix); (Some Capella, Version Capella); (Some Deneb, Version Deneb)];
  (* 388 *) mkRow "parent_hash" false [(Some Bellatrix, Part "parent_hash"); (Some Capella, Part "parent_hash"); (Some Deneb, Part "parent_hash")];
  (* 395 *) mkRow "fee_recipient" false [(Some Bellatrix, Part "fee_recipient"); (Some Capella, Part "fee_recipient"); (Some Deneb, Part "fee_recipient")];
  (* 402 *) mkRow "state_root" false [(Some Bellatrix, Part "state_root"); (Some Capella, Part "state_root"); (Some Deneb, Part "state_root")];
  (* 409 *) mkRow "receipts_root" false [(Some Bellatrix, Part "receipts_root"); (Some Capella, Part "receipts_root"); (Some Deneb, Part "receipts_root")];
  (* 416 *) mkRow "logs_bloom" false [(Some Bellatrix, Part "logs_bloom"); (Some Capella, Part "logs_bloom"); (Some Deneb, Part "logs_bloom")];
  (* 423 *) mkRow "prev_randao" false [(Some Bellatrix, Part "prev_randao"); (Some Capella, Part "prev_randao"); (Some Deneb, Part "prev_randao")];
  (* 430 *) mkRow "block_number" false [(Some Bellatrix, Part "block_number"); (Some Capella, Part "block_number"); (Some Deneb, Part "block_number")];
  (* 437 *) mkRow "gas_limit" false [(Some Bellatrix, Part "gas_limit"); (Some Capella, Part "gas_limit"); (Some Deneb, Part "gas_limit")];
  (* 444 *) mkRow "gas_used" false [(Some Bellatrix, Part "gas_used"); (Some Capella, Part "gas_used"); (Some Deneb, Part "gas_used")];
  (* 451 *) mkRow "timestamp" false [(Some Bellatrix, Part "timestamp"); (Some Capella, Part "timestamp"); (Some Deneb, Part "timestamp")];
  (* 458 *) mkRow "extra_data" false [(Some Bellatrix, Part "extra_data"); (Some Capella, Part "extra_data"); (Some Deneb, Part "extra_data")];
  (* 465 *) mkRow "base_fee_per_gas" false [(Some Bellatrix, Part "base_fee_per_gas"); (Some Capella, Part "base_fee_per_gas"); (Some Deneb, Part "base_fee_per_gas")];
  (* 472 *) mkRow "block_hash" false [(Some Bellatrix, Part "block_hash"); (Some Capella, Part "block_hash"); (Some Deneb, Part "block_hash")];
  (* 479 *) mkRow "transactions_root" false [(Some Bellatrix, Part "transactions_root"); (Some Capella, Part "transactions_root"); (Some Deneb, Part "transactions_root")];
  (* 486 *) mkRow "withdrawals_root" false [(Some Bellatrix, Nothing); (Some Capella, Part "withdrawals_root"); (Some Deneb, Part "withdrawals_root")];
  (* 493 *) mkRow "blob_gas_used" false [(Some Bellatrix, Nothing); (Some Capella, Nothing); (Some Deneb, Part "blob_gas_used")];
  (* 500 *) mkRow "excess_blob_gas" false [(Some Bellatrix, Nothing); (Some Capella, Nothing); (Some Deneb, Part "excess_blob_gas")]].
(** types/execution_payload_header.rs, ExecutionPayloadHeaderRefMut *)
Definition KHeader_Exclusive : list row := [
  (* 554 *) mkRow "bellatrix" false [(Some Bellatrix, Whole); (None, Nothing)];
  (* 563 *) mkRow "bellatrix_mut" true [(Some Bellatrix, Whole); (None, Nothing)];
  (* 572 *) mkRow "capella" false [(Some Capella, Whole); (None, Nothing)];
  (* 580 *) mkRow "capella_mut" true [(Some Capella, Whole); (None, Nothing)];
  (* 589 *) mkRow "deneb" false [(Some Deneb, Whole); (None, Nothing)];
  (* 597 *) mkRow "deneb_mut" true [(Some Deneb, Whole); (None, Nothing)];
  (* 606 *) mkRow "version" false [(Some Bellatrix, Version Bellatrix); (Some Capella, Version Capella); (Some Deneb, Version Deneb)];
  (* 613 *) mkRow "parent_hash" false [(Some Bellatrix, Part "parent_hash"); (Some Capella, Part "parent_hash"); (Some Deneb, Part "parent_hash")];
  (* 620 *) mkRow "parent_hash_mut" true [(Some Bellatrix, Part "parent_hash"); (Some Capella, Part "parent_hash"); (Some Deneb, Part "parent_hash")];
  (* 627 *) mkRow "fee_recipient" false [(Some Bellatrix, Part "fee_recipient"); (Some Capella, Part "fee_recipient"); (Some Deneb, Part "fee_recipient")];
  (* 634 *) mkRow "fee_recipient_mut" true [(Some Bellatrix, Part "fee_recipient"); (Some Capella, Part "fee_recipient"); (Some Deneb, Part "fee_recipient")];
  (* 641 *) mkRow "state_root" false [(Some Bellatrix, Part "state_root"); (Some Capella, Part "state_root"); (Some Deneb, Part "state_root")];
  (* 648 *) mkRow "state_root_mut" true [(Some Bellatrix, Part "state_root"); (Some Capella, Part "state_root"); (Some Deneb, Part "state_root")];
  (* 655 *) mkRow "receipts_root" false [(Some Bellatrix, Part "receipts_root"); (Some Capella, Part "receipts_root"); (Some Deneb, Part "receipts_root")];
  (* 662 *) mkRow "receipts_root_mut" true [(Some Bellatrix, Part "receipts_root"); (Some Capella, Part "receipts_root"); (Some Deneb, Part "receipts_root")];
  (* 669 *) mkRow "logs_bloom" false [(Some Bellatrix, Part "logs_bloom"); (Some Capella, Part "logs_bloom"); (Some Deneb, Part "logs_bloom")];
  (* 676 *) mkRow "logs_bloom_mut" true [(Some Bellatrix, Part "logs_bloom"); (Some Capella, Part "logs_bloom"); (Some Deneb, Part "logs_bloom")];
  (* 683 *) mkRow "prev_randao" false [(Some Bellatrix, Part "prev_randao"); (Some Capella, Part "prev_randao"); (Some Deneb, Part "prev_randao")];
  (* 690 *) mkRow "prev_randao_mut" true [(Some Bellatrix, Part "prev_randao"); (Some Capella, Part "prev_randao"); (Some Deneb, Part "prev_randao")];
  (* 697 *) mkRow "block_number" false [(Some Bellatrix, Part "block_number"); (Some Capella, Part "block_number"); (Some Deneb, Part "block_number")];
  (* 704 *) mkRow "block_number_mut" true [(Some Bellatrix, Part "block_number"); (Some Capella, Part "block_number"); (Some Deneb, Part "block_number")];
  (* 711 *) mkRow "gas_limit" false [(Some Bellatrix, Part "gas_limit"); (Some Capella, Part "gas_limit"); (Some Deneb, Part "gas_limit")];
  (* 718 *) mkRow "gas_limit_mut" true [(Some Bellatrix, Part "gas_limit"); (Some Capella, Part "gas_limit"); (Some Deneb, Part "gas_limit")];
  (* 725 *) mkRow "gas_used" false [(Some Bellatrix, Part "gas_used"); (Some Capella, Part "gas_used"); (Some Deneb, Part "gas_used")];
  (* 732 *) mkRow "gas_used_mut" true [(Some Bellatrix, Part "gas_used"); (Some Capella, Part "gas_used"); (Some Deneb, Part "gas_used")];
  (* 739 *) mkRow "timestamp" false [(Some Bellatrix, Part "timestamp"); (Some Capella, Part "timestamp"); (Some Deneb, Part "timestamp")];
  (* 746 *) mkRow "timestamp_mut" true [(Some Bellatrix, Part "timestamp"); (Some Capella, Part "timestamp"); (Some Deneb, Part "timestamp")];
  (* 753 *) mkRow "extra_data" false [(Some Bellatrix, Part "extra_data"); (Some Capella, Part "extra_data"); (Some Deneb, Part "extra_data")];
  (* 760 *) mkRow "extra_data_mut" true [(Some Bellatrix, Part "extra_data"); (Some Capella, Part "extra_data"); (Some Deneb, Part "extra_data")];
  (* 767 *) mkRow "base_fee_per_gas" false [(Some Bellatrix, Part "base_fee_per_gas"); (Some Capella, Part "base_fee_per_gas"); (Some Deneb, Part "base_fee_per_gas")];
  (* 774 *) mkRow "base_fee_per_gas_mut" true [(Some Bellatrix, Part "base_fee_per_gas"); (Some Capella, Part "base_fee_per_gas"); (Some Deneb, Part "base_fee_per_gas")];
  (* 781 *) mkRow "block_hash" false [(Some Bellatrix, Part "block_hash"); (Some Capella, Part "block_hash"); (Some Deneb, Part "block_hash")];
  (* 788 *) mkRow "block_hash_mut" true [(Some Bellatrix, Part "block_hash"); (Some Capella, Part "block_hash"); (Some Deneb, Part "block_hash")];
  (* 795 *) mkRow "transactions_root" false [(Some Bellatrix, Part "transactions_root"); (Some Capella, Part "transactions_root"); (Some Deneb, Part "transactions_root")];
  (* 802 *) mkRow "transactions_root_mut" true [(Some Bellatrix, Part "transactions_root"); (Some Capella, Part "transactions_root"); (Some Deneb, Part "transactions_root")];
  (* 809 *) mkRow "withdrawals_root" false [(Some Bellatrix, Nothing); (Some Capella, Part "withdrawals_root"); (Some Deneb, Part "withdrawals_root")];
  (* 816 *) mkRow "withdrawals_root_mut" true [(Some Bellatrix, Nothing); (Some Capella, Part "withdrawals_root"); (Some Deneb, Part "withdrawals_root")];
  (* 823 *) mkRow "blob_gas_used" false [(Some Bellatrix, Nothing); (Some Capella, Nothing); (Some Deneb, Part "blob_gas_used")];
  (* 830 *) mkRow "blob_gas_used_mut" true [(Some Bellatrix, Nothing); (Some Capella, Nothing); (Some Deneb, Part "blob_gas_used")];
  (* 837 *) mkRow "excess_blob_gas" false [(Some Bellatrix, Nothing); (Some Capella, Nothing); (Some Deneb, Part "excess_blob_gas")];
  (* 844 *) mkRow "excess_blob_gas_mut" true [(Some Bellatrix, Nothing); (Some Capella, Nothing); (Some Deneb, Part "excess_blob_gas")]].
(** types/blinded_beacon_block_body.rs, BlindedBeaconBlockBody *)
Definition KBlindedBody_Owned : list row := [
  (* 102 *) mkRow "bellatrix" false [(Some Bellatrix, Whole); (None, Nothing)];
  (* 122 *) mkRow "bellatrix_mut" true [(Some Bellatrix, Whole); (None, Nothing)];
  (* 142 *) mkRow "capella" false [(Some Capella, Whole); (None, Nothing)];
  (* 163 *) mkRow "capella_mut" true [(Some Capella, Whole); (None, Nothing)];
  (* 184 *) mkRow "deneb" false [(Some Deneb, Whole); (None, Nothing)];
  (* 206 *) mkRow "deneb_mut" true [(Some Deneb, Whole); (None, Nothing)];
  (* 228 *) mkRow "version" false [(Some Bellatrix, Version Bellatrix); (Some Capella, Version Capella); (Some Deneb, Version Deneb)];
  (* 235 *) mkRow "randao_reveal" false [(Some Bellatrix, Part "randao_reveal"); (Some Capella, Part "randao_reveal"); (Some Deneb, Part "randao_reveal")];
  (* 242 *) mkRow "randao_reveal_mut" true [(Some Bellatrix, Part "randao_reveal"); (Some Capella, Part "randao_reveal"); (Some Deneb, Part "randao_reveal")];
  (* 249 *) mkRow "eth1_data" false [(Some Bellatrix, Part "eth1_data"); (Some Capella, Part "eth1_data"); (Some Deneb, Part "eth1_data")];
  (* 256 *) mkRow "eth1_data_mut" true [(Some Bellatrix, Part "eth1_data"); (Some Capella, Part "eth1_data"); (Some Deneb, Part "eth1_data")];
  (* 263 *) mkRow "graffiti" false [(Some Bellatrix, Part "graffiti"); (Some Capella, Part "graffiti"); (Some Deneb, Part "graffiti")];
  (* 270 *) mkRow "graffiti_mut" true [(Some Bellatrix, Part "graffiti"); (Some Capella, Part "graffiti"); (Some Deneb, Part "graffiti")];
  (* 277 *) mkRow "proposer_slashings" false [(Some Bellatrix, Part "proposer_slashings"); (Some Capella, Part "proposer_slashings"); (Some Deneb, Part "proposer_slashings")];
  (* 284 *) mkRow "proposer_slashings_mut" true [(Some Bellatrix, Part "proposer_slashings"); (Some Capella, Part "proposer_slashings"); (Some Deneb, Part "proposer_slashings")];
  (* 293 *) mkRow "attester_slashings" false [(Some Bellatrix, Part "attester_slashings"); (Some Capella, Part "attester_slashings"); (Some Deneb, Part "attester_slashings")];
  (* 302 *) mkRow "attester_slashings_mut" true [(Some Bellatrix, Part "attester_slashings"); (Some Capella, Part "attester_slashings"); (Some Deneb, Part "attester_slashings")];
  (* 311 *) mkRow "attestations" false [(Some Bellatrix, Part "attestations"); (Some Capella, Part "attestations"); (Some Deneb, Part "attestations")];
  (* 320 *) mkRow "attestations_mut" true [(Some Bellatrix, Part "attestations"); (Some Capella, Part "attestations"); (Some Deneb, Part "attestations")];
  (* 329 *) mkRow "deposits" false [(Some Bellatrix, Part "deposits"); (Some Capella, Part "deposits"); (Some Deneb, Part "deposits")];
  (* 336 *) mkRow "deposits_mut" true [(Some Bellatrix, Part "deposits"); (Some Capella, Part "deposits"); (Some Deneb, Part "deposits")];
  (* 343 *) mkRow "voluntary_exits" false [(Some Bellatrix, Part "voluntary_exits"); (Some Capella, Part "voluntary_exits"); (Some Deneb, Part "voluntary_exits")];
  (* 350 *) mkRow "voluntary_exits_mut" true [(Some Bellatrix, Part "voluntary_exits"); (Some Capella, Part "voluntary_exits"); (Some Deneb, Part "voluntary_exits")];
  (* 357 *) mkRow "sync_aggregate" false [(Some Bellatrix, Part "sync_aggregate"); (Some Capella, Part "sync_aggregate"); (Some Deneb, Part "sync_aggregate")];
  (* 364 *) mkRow "sync_aggregate_mut" true [(Some Bellatrix, Part "sync_aggregate"); (Some Capella, Part "sync_aggregate"); (Some Deneb, Part "sync_aggregate")];
  (* 371 *) mkRow "execution_payload_header" false [(Some Bellatrix, Wrapped "execution_payload_header"); (Some Capella, Wrapped "execution_payload_header"); (Some Deneb, Wrapped "execution_payload_header")];
  (* 380 *) mkRow "execution_payload_header_mut" true [(Some Bellatrix, Wrapped "execution_payload_header"); (Some Capella, Wrapped "execution_payload_header"); (Some Deneb, Wrapped "execution_payload_header")];
  (* 389 *) mkRow "bls_to_execution_changes" false [(Some Bellatrix, Nothing); (Some Capella, Part "bls_to_execution_changes"); (Some Deneb, Part "bls_to_execution_changes")];
  (* 398 *) mkRow "bls_to_execution_changes_mut" true [(Some Bellatrix, Nothing); (Some Capella, Part "bls_to_execution_changes"); (Some Deneb, Part "bls_to_execution_changes")];
  (* 407 *) mkRow "blob_kzg_commitments" false [(Some Bellatrix, Nothing); (Some Capella, Nothing); (Some Deneb, Part "blob_kzg_commitments")];
  (* 416 *) mkRow "blob_kzg_commitments_mut" true [(Some Bellatrix, Nothing); (Some Capella, Nothing); (Some Deneb, Part "blob_kzg_commitments")]].
(** types/blinded_beacon_block_body.rs, BlindedBeaconBlockBodyRef *)
Definition KBlindedBody_Shared : list row := [
  (* 558 *) mkRow "bellatrix" false [(Some Bellatrix, Whole); (None, Nothing)];
  (* 578 *) mkRow "capella" false [(Some Capella, Whole); (None, Nothing)];
  (* 599 *) mkRow "deneb" false [(Some Deneb, Whole); (None, Nothing)];
  (* 621 *) mkRow "version" false [(Some Bellatrix, Version Bellatrix); (Some Capella, Version Capella); (Some Deneb, Version Deneb)];
  (* 628 *) mkRow "randao_reveal" false [(Some Bellatrix, Part "randao_reveal"); (Some Capella, Part "randao_reveal"); (Some Deneb, Part "randao_reveal")];
  (* 635 *) mkRow "eth1_data" false [(Some Bellatrix, Part "eth1_data"); (Some Capella, Part "eth1_data"); (Some Deneb, Part "eth1_data")];
  (* 642 *) mkRow "graffiti" false [(Some Bellatrix, Part "graffiti"); (Some Capella, Part "graffiti"); (Some Deneb, Part "graffiti")];
  (* 649 *) mkRow "proposer_slashings" false [(Some Bellatrix, Part "proposer_slashings"); (Some Capella, Part "proposer_slashings"); (Some Deneb, Part "proposer_slashings")];
  (* 656 *) mkRow "attester_slashings" false [(Some Bellatrix, Part "attester_slashings"); (Some Capella, Part "attester_slashings"); (Some Deneb, Part "attester_slashings")];
  (* 665 *) mkRow "attestations" false [(Some Bellatrix, Part "attestations"); (Some Capella, Part "attestations"); (Some Deneb, Part "attestations")];
  (* 674 *) mkRow "deposits" false [(Some Bellatrix, Part "deposits"); (Some Capella, Part "deposits"); (Some Deneb, Part "deposits")];
  (* 681 *) mkRow "voluntary_exits" false [(Some Bellatrix, Part "voluntary_exits"); (Some Capella, Part "voluntary_exits"); (Some Deneb, Part "voluntary_exits")];
  (* 688 *) mkRow "sync_aggregate" false [(Some Bellatrix, Part "sync_aggregate"); (Some Capella, Part "sync_aggregate"); (Some Deneb, Part "sync_aggregate")];
  (* 695 *) mkRow "execution_payload_header" false [(Some Bellatrix, Wrapped "execution_payload_header"); (Some Capella, Wrapped "execution_payload_header"); (Some Deneb, Wrapped "execution_payload_header")];
  (* 704 *) mkRow "bls_to_execution_changes" false [(Some Bellatrix, Nothing); (Some Capella, Part "bls_to_execution_changes"); (Some Deneb, Part "bls_to_execution_changes")];
  (* 713 *) mkRow "blob_kzg_commitments" false [(Some Bellatrix, Nothing); (Some Capella, Nothing); (Some Deneb, Part "blob_kzg_commitments")]].
(** types/blinded_beacon_block_body.rs, BlindedBeaconBlockBodyRefMut *)
Definition KBlindedBody_Exclusive : list row := [
  (* 990 *) mkRow "bellatrix" false [(Some Bellatrix, Whole); (None, Nothing)];
  (* 1010 *) mkRow "bellatrix_mut" true [(Some Bellatrix, Whole); (None, Nothing)];
  (* 1030 *) mkRow "capella" false [(Some Capella, Whole); (None, Nothing)];
  (* 1051 *) mkRow "capella_mut" true [(Some Capella, Whole); (None, Nothing)];
  (* 1072 *) mkRow "deneb" false [(Some Deneb, Whole); (None, Nothing)];
  (* 1094 *) mkRow "deneb_mut" true [(Some Deneb, Whole); (None, Nothing)];
  (* 1116 *) mkRow "version" false [(Some Bellatrix, Version Bellatrix); (Some Capella, Version Capella); (Some Deneb, Version Deneb)];
  (* 1123 *) mkRow "randao_reveal" false [(Some Bellatrix, Part "randao_reveal"); (Some Capella, Part "randao_reveal"); (Some Deneb, Part "randao_reveal")];
  (* 1130 *) mkRow "randao_reveal_mut" true [(Some Bellatrix, Part "randao_reveal"); (Some Capella, Part "randao_reveal"); (Some Deneb, Part "randao_reveal")];
  (* 1137 *) mkRow "eth1_data" false [(Some Bellatrix, Part "eth1_data"); (Some Capella, Part "eth1_data"); (Some Deneb, Part "eth1_data")];
  (* 1144 *) mkRow "eth1_data_mut" true [(Some Bellatrix, Part "eth1_data"); (Some Capella, Part "eth1_data"); (Some Deneb, Part "eth1_data")];
  (* 1151 *) mkRow "graffiti" false [(Some Bellatrix, Part "graffiti"); (Some Capella, Part "graffiti"); (Some Deneb, Part "graffiti")];
  (* 1158 *) mkRow "graffiti_mut" true [(Some Bellatrix, Part "graffiti"); (Some Capella, Part "graffiti"); (Some Deneb, Part "graffiti")];
  (* 1165 *) mkRow "proposer_slashings" false [(Some Bellatrix, Part "proposer_slashings"); (Some Capella, Part "proposer_slashings"); (Some Deneb, Part "proposer_slashings")];
  (* 1172 *) mkRow "proposer_slashings_mut" true [(Some Bellatrix, Part "proposer_slashings"); (Some Capella, Part "proposer_slashings"); (Some Deneb, Part "proposer_slashings")];
  (* 1181 *) mkRow "attester_slashings" false [(Some Bellatrix, Part "attester_slashings"); (Some Capella, Part "attester_slashings"); (Some Deneb, Part "attester_slashings")];
  (* 1190 *) mkRow "attester_slashings_mut" true [(Some Bellatrix, Part "attester_slashings"); (Some Capella, Part "attester_slashings"); (Some Deneb, Part "attester_slashings")];
  (* 1199 *) mkRow "attestations" false [(Some Bellatrix, Part "attestations"); (Some Capella, Part "attestations"); (Some Deneb, Part "attestations")];
  (* 1208 *) mkRow "attestations_mut" true [(Some Bellatrix, Part "attestations"); (Some Capella, Part "attestations"); (Some Deneb, Part "attestations")];
  (* 1217 *) mkRow "deposits" false [(Some Bellatrix, Part "deposits"); (Some Capella, Part "deposits"); (Some Deneb, Part "deposits")];
  (* 1224 *) mkRow "deposits_mut" true [(Some Bellatrix, Part "deposits"); (Some Capella, Part "deposits"); (Some Deneb, Part "deposits")];
  (* 1231 *) mkRow "voluntary_exits" false [(Some Bellatrix, Part "voluntary_exits"); (Some Capella, Part "voluntary_exits"); (Some Deneb, Part "voluntary_exits")];
  (* 1238 *) mkRow "voluntary_exits_mut" true [(Some Bellatrix, Part "voluntary_exits"); (Some Capella, Part "voluntary_exits"); (Some Deneb, Part "voluntary_exits")];
  (* 1245 *) mkRow "sync_aggregate" false [(Some Bellatrix, Part "sync_aggregate"); (Some Capella, Part "sync_aggregate"); (Some Deneb, Part "sync_aggregate")];
  (* 1252 *) mkRow "sync_aggregate_mut" true [(Some Bellatrix, Part "sync_aggregate"); (Some Capella, Part "sync_aggregate"); (Some Deneb, Part "sync_aggregate")];
  (* 1259 *) mkRow "execution_payload_header" false [(Some Bellatrix, Wrapped "execution_payload_header"); (Some Capella, Wrapped "execution_payload_header"); (Some Deneb, Wrapped "execution_payload_header")];
  (* 1268 *) mkRow "execution_payload_header_mut" true [(Some Bellatrix, Wrapped "execution_payload_header"); (Some Capella, Wrapped "execution_payload_header"); (Some Deneb, Wrapped "execution_payload_header")];
  (* 1277 *) mkRow "bls_to_execution_changes" false [(Some Bellatrix, Nothing); (Some Capella, Part "bls_to_execution_changes"); (Some Deneb, Part "bls_to_execution_changes")];
  (* 1286 *) mkRow "bls_to_execution_changes_mut" true [(Some Bellatrix, Nothing); (Some Capella, Part "bls_to_execution_changes"); (Some Deneb, Part "bls_to_execution_changes")];
  (* 1295 *) mkRow "blob_kzg_commitments" false [(Some Bellatrix, Nothing); (Some Capella, Nothing); (Some Deneb, Part "blob_kzg_commitments")];
  (* 1304 *) mkRow "blob_kzg_commitments_mut" true [(Some Bellatrix, Nothing); (Some Capella, Nothing); (Some Deneb, Part "blob_kzg_commitments")]].
(** types/blinded_beacon_block.rs, BlindedBeaconBlock *)
Definition KBlindedBlock_Owned : list row := [
  (* 97 *) mkRow "bellatrix" false [(Some Bellatrix, Whole); (None, Nothing)];
  (* 117 *) mkRow "bellatrix_mut" true [(Some Bellatrix, Whole); (None, Nothing)];
  (* 137 *) mkRow "capella" false [(Some Capella, Whole); (None, Nothing)];
  (* 158 *) mkRow "capella_mut" true [(Some Capella, Whole); (None, Nothing)];
  (* 179 *) mkRow "deneb" false [(Some Deneb, Whole); (None, Nothing)];
  (* 201 *) mkRow "deneb_mut" true [(Some Deneb, Whole); (None, Nothing)];
  (* 223 *) mkRow "version" false [(Some Bellatrix, Version Bellatrix); (Some Capella, Version Capella); (Some Deneb, Version Deneb)];
  (* 230 *) mkRow "slot" false [(Some Bellatrix, Part "slot"); (Some Capella, Part "slot"); (Some Deneb, Part "slot")];
  (* 237 *) mkRow "slot_mut" true [(Some Bellatrix, Part "slot"); (Some Capella, Part "slot"); (Some Deneb, Part "slot")];
  (* 244 *) mkRow "proposer_index" false [(Some Bellatrix, Part "proposer_index"); (Some Capella, Part "proposer_index"); (Some Deneb, Part "proposer_index")];
  (* 251 *) mkRow "proposer_index_mut" true [(Some Bellatrix, Part "proposer_index"); (Some Capella, Part "proposer_index"); (Some Deneb, Part "proposer_index")];
  (* 258 *) mkRow "parent_root" false [(Some Bellatrix, Part "parent_root"); (Some Capella, Part "parent_root"); (Some Deneb, Part "parent_root")];
  (* 265 *) mkRow "parent_root_mut" true [(Some Bellatrix, Part "parent_root"); (Some Capella, Part "parent_root"); (Some Deneb, Part "parent_root")];
  (* 272 *) mkRow "state_root" false [(Some Bellatrix, Part "state_root"); (Some Capella, Part "state_root"); (Some Deneb, Part "state_root")];
  (* 279 *) mkRow "state_root_mut" true [(Some Bellatrix, Part "state_root"); (Some Capella, Part "state_root"); (Some Deneb, Part "state_root")];
  (* 286 *) mkRow "body" false [(Some Bellatrix, Wrapped "body"); (Some Capella, Wrapped "body"); (Some Deneb, Wrapped "body")];
  (* 307 *) mkRow "body_mut" true [(Some Bellatrix, Wrapped "body"); (Some Capella, Wrapped "body"); (Some Deneb, Wrapped "body")]].
(** types/blinded_beacon_block.rs, BlindedBeaconBlockRef *)
Definition KBlindedBlock_Shared : list row := [
  (* 461 *) mkRow "bellatrix" false [(Some Bellatrix, Whole); (None, Nothing)];
  (* 481 *) mkRow "capella" false [(Some Capella, Whole); (None, Nothing)];
  (* 502 *) mkRow "deneb" false [(Some Deneb, Whole); (None, Nothing)];
  (* 524 *) mkRow "version" false [(Some Bellatrix, Version Bellatrix); (Some Capella, Version Capella); (Some Deneb, Version Deneb)];
  (* 531 *) mkRow "slot" false [(Some Bellatrix, Part "slot"); (Some Capella, Part "slot"); (Some Deneb, Part "slot")];
  (* 538 *) mkRow "proposer_index" false [(Some Bellatrix, Part "proposer_index"); (Some Capella, Part "proposer_index"); (Some Deneb, Part "proposer_index")];
  (* 545 *) mkRow "parent_root" false [(Some Bellatrix, Part "parent_root"); (Some Capella, Part "parent_root"); (Some Deneb, Part "parent_root")];
  (* 552 *) mkRow "state_root" false [(Some Bellatrix, Part "state_root"); (Some Capella, Part "state_root"); (Some Deneb, Part "state_root")];
  (* 559 *) mkRow "body" false [(Some Bellatrix, Wrapped "body"); (Some Capella, Wrapped "body"); (Some Deneb, Wrapped "body")]].
(** types/blinded_beacon_block.rs, BlindedBeaconBlockRefMut *)
Definition KBlindedBlock_Exclusive : list row := [
  (* 848 *) mkRow "bellatrix" false [(Some Bellatrix, Whole); (None, Nothing)];
  (* 868 *) mkRow "bellatrix_mut" true [(Some Bellatrix, Whole); (None, Nothing)];
  (* 888 *) mkRow "capella" false [(Some Capella, Whole); (None, Nothing)];
  (* 909 *) mkRow "capella_mut" true [(Some Capella, Whole); (None, Nothing)];
  (* 930 *) mkRow "deneb" false [(Some Deneb, Whole); (None, Nothing)];
  (* 952 *) mkRow "deneb_mut" true [(Some Deneb, Whole); (None, Nothing)];
  (* 974 *) mkRow "version" false [(Some Bellatrix, Version Bellatrix); (Some Capella, Version Capella); (Some Deneb, Version Deneb)];
  (* 981 *) mkRow "slot" false [(Some Bellatrix, Part "slot"); (Some Capella, Part "slot"); (Some Deneb, Part "slot")];
  (* 988 *) mkRow "slot_mut" true [(Some Bellatrix, Part "slot"); (Some Capella, Part "slot"); (Some Deneb, Part "slot")];
  (* 995 *) mkRow "proposer_index" false [(Some Bellatrix, Part "proposer_index"); (Some Capella, Part "proposer_index"); (Some Deneb, Part "proposer_index")];
  (* 1002 *) mkRow "proposer_index_mut" true [(Some Bellatrix, Part "proposer_index"); (Some Capella, Part "proposer_index"); (Some Deneb, Part "proposer_index")];
  (* 1009 *) mkRow "parent_root" false [(Some Bellatrix, Part "parent_root"); (Some Capella, Part "parent_root"); (Some Deneb, Part "parent_root")];
  (* 1016 *) mkRow "parent_root_mut" true [(Some Bellatrix, Part "parent_root"); (Some Capella, Part "parent_root"); (Some Deneb, Part "parent_root")];
  (* 1023 *) mkRow "state_root" false [(Some Bellatrix, Part "state_root"); (Some Capella, Part "state_root"); (Some Deneb, Part "state_root")];
  (* 1030 *) mkRow "state_root_mut" true [(Some Bellatrix, Part "state_root"); (Some Capella, Part "state_root"); (Some Deneb, Part "state_root")];
  (* 1037 *) mkRow "body" false [(Some Bellatrix, Wrapped "body"); (Some Capella, Wrapped "body"); (Some Deneb, Wrapped "body")];
  (* 1058 *) mkRow "body_mut" true [(Some Bellatrix, Wrapped "body"); (Some Capella, Wrapped "body"); (Some Deneb, Wrapped "body")]].
(** types/signed_blinded_beacon_block.rs, SignedBlindedBeaconBlock *)
Definition KSignedBlindedBlock_Owned : list row := [
  (* 97 *) mkRow "bellatrix" false [(Some Bellatrix, Whole); (None, Nothing)];
  (* 117 *) mkRow "bellatrix_mut" true [(Some Bellatrix, Whole); (None, Nothing)];
  (* 137 *) mkRow "capella" false [(Some Capella, Whole); (None, Nothing)];
  (* 158 *) mkRow "capella_mut" true [(Some Capella, Whole); (None, Nothing)];
  (* 179 *) mkRow "deneb" false [(Some Deneb, Whole); (None, Nothing)];
  (* 201 *) mkRow "deneb_mut" true [(Some Deneb, Whole); (None, Nothing)];
  (* 223 *) mkRow "version" false [(Some Bellatrix, Version Bellatrix); (Some Capella, Version Capella); (Some Deneb, Version Deneb)];
  (* 230 *) mkRow "message" false [(Some Bellatrix, Wrapped "message"); (Some Capella, Wrapped "message"); (Some Deneb, Wrapped "message")];
  (* 251 *) mkRow "message_mut" true [(Some Bellatrix, Wrapped "message"); (Some Capella, Wrapped "message"); (Some Deneb, Wrapped "message")];
  (* 272 *) mkRow "signature" false [(Some Bellatrix, Part "signature"); (Some Capella, Part "signature"); (Some Deneb, Part "signature")];
  (* 279 *) mkRow "signature_mut" true [(Some Bellatrix, Part "signature"); (Some Capella, Part "signature"); (Some Deneb, Part "signature")]].

(** the accessors of an enum; the two signed types have no reference enums *)
Definition rows (c : container_kind) (w : view) : list row :=
  match c, w with
  | KState, Owned => KState_Owned
  | KState, Shared => KState_Shared
  | KState, Exclusive => KState_Exclusive
  | KBody, Owned => KBody_Owned
  | KBody, Shared => KBody_Shared
  | KBody, Exclusive => KBody_Exclusive
  | KBlock, Owned => KBlock_Owned
  | KBlock, Shared => KBlock_Shared
  | KBlock, Exclusive => KBlock_Exclusive
  | KSignedBlock, Owned => KSignedBlock_Owned
  | KPayload, Owned => KPayload_Owned
  | KPayload, Shared => KPayload_Shared
  | KPayload, Exclusive => KPayload_Exclusive
  | KHeader, Owned => KHeader_Owned
  | KHeader, Shared => KHeader_Shared
  | KHeader, Exclusive => KHeader_Exclusive
  | KBlindedBody, Owned => KBlindedBody_Owned
  | KBlindedBody, Shared => KBlindedBody_Shared
  | KBlindedBody, Exclusive => KBlindedBody_Exclusive
  | KBlindedBlock, Owned => KBlindedBlock_Owned
  | KBlindedBlock, Shared => KBlindedBlock_Shared
  | KBlindedBlock, Exclusive => KBlindedBlock_Exclusive
  | KSignedBlindedBlock, Owned => KSignedBlindedBlock_Owned
  | _, _ => []
  end.

(** [From<&phase0::X> for XRef] and the like: the fork whose type is converted, and the variant it becomes *)
Definition conversions (c : container_kind) (w : view) : list (Fork * Fork) :=
  match c, w with
  | KState, Shared => [(Phase0, Phase0); (Altair, Altair); (Bellatrix, Bellatrix); (Capella, Capella); (Deneb, Deneb)] (* types/beacon_state.rs:1466, 1522, 1578, 1638, 1698 *)
  | KState, Exclusive => [(Phase0, Phase0); (Altair, Altair); (Bellatrix, Bellatrix); (Capella, Capella); (Deneb, Deneb)] (* types/beacon_state.rs:2651, 2707, 2763, 2823, 2883 *)
  | KBody, Shared => [(Phase0, Phase0); (Altair, Altair); (Bellatrix, Bellatrix); (Capella, Capella); (Deneb, Deneb)] (* types/beacon_block_body.rs:1041, 1099, 1159, 1227, 1299 *)
  | KBody, Exclusive => [(Phase0, Phase0); (Altair, Altair); (Bellatrix, Bellatrix); (Capella, Capella); (Deneb, Deneb)] (* types/beacon_block_body.rs:1974, 2032, 2092, 2160, 2232 *)
  | KBlock, Shared => [(Phase0, Phase0); (Altair, Altair); (Bellatrix, Bellatrix); (Capella, Capella); (Deneb, Deneb)] (* types/beacon_block.rs:843, 901, 961, 1029, 1101 *)
  | KBlock, Exclusive => [(Phase0, Phase0); (Altair, Altair); (Bellatrix, Bellatrix); (Capella, Capella); (Deneb, Deneb)] (* types/beacon_block.rs:1646, 1704, 1764, 1832, 1904 *)
  | KPayload, Shared => [(Bellatrix, Bellatrix); (Capella, Capella); (Deneb, Deneb)] (* types/execution_payload.rs:670, 706, 744 *)
  | KPayload, Exclusive => [(Bellatrix, Bellatrix); (Capella, Capella); (Deneb, Deneb)] (* types/execution_payload.rs:1181, 1217, 1255 *)
  | KHeader, Shared => [(Bellatrix, Bellatrix); (Capella, Capella); (Deneb, Deneb)] (* types/execution_payload_header.rs:508, 518, 528 *)
  | KHeader, Exclusive => [(Bellatrix, Bellatrix); (Capella, Capella); (Deneb, Deneb)] (* types/execution_payload_header.rs:852, 865, 875 *)
  | KBlindedBody, Shared => [(Bellatrix, Bellatrix); (Capella, Capella); (Deneb, Deneb)] (* types/blinded_beacon_block_body.rs:723, 781, 841 *)
  | KBlindedBody, Exclusive => [(Bellatrix, Bellatrix); (Capella, Capella); (Deneb, Deneb)] (* types/blinded_beacon_block_body.rs:1314, 1372, 1432 *)
  | KBlindedBlock, Shared => [(Bellatrix, Bellatrix); (Capella, Capella); (Deneb, Deneb)] (* types/blinded_beacon_block.rs:581, 639, 699 *)
  | KBlindedBlock, Exclusive => [(Bellatrix, Bellatrix); (Capella, Capella); (Deneb, Deneb)] (* types/blinded_beacon_block.rs:1080, 1138, 1198 *)
  | _, _ => []
  end.
