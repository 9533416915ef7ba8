(** * Upgrade: the fork upgrade functions

    Each Rust function builds the new state with a struct literal; the model does the same, giving the fields that the
    target fork's state does not have their default value. *)
From Verif Require Export Transition.

Section WithEnv.
Variable E : Env.

(** [SyncCommittee::default()] *)
Definition default_sync_committee : SyncCommittee := mkSyncCom (repeatN (repeat 0 48) (SYNC_COMMITTEE_SIZE E)) (repeat 0 48).

(** altair/fork.rs:41-46 *)
Definition translate_one (flags : list N) (index : N) (part : list N) : res (list N) :=
  rfold (fun part f => let! p := idx part index in Ok (updN part index (add_flag p f))) flags part.
(** altair/fork.rs:12-49: the loop body, on the vector of previous-epoch participation of [s] *)
Definition translate_attestation (s : BeaconState) (part : list N) (a : PendingAttestation) : res (list N) :=
  let! flags := get_attestation_participation_flag_indices E Altair s (pa_data a) (pa_inclusion_delay a) in
  let! is := get_attesting_indices E s (pa_data a) (pa_aggregation_bits a) in
  rfold (fun part i => translate_one flags i part) is part.
(** altair/fork.rs:12-49.  Simplification: the Rust loop threads the whole state, of which only
    [previous_epoch_participation] changes; the helpers it calls do not read that field *)
Definition translate_participation (s : BeaconState) (l : list PendingAttestation) : res BeaconState :=
  let! part := rfold (translate_attestation s) l (previous_epoch_participation s) in
  Ok (set_previous_epoch_participation part s).

(** altair/fork.rs:92-121 *)
Definition altair_base (epoch : N) (s : BeaconState) : BeaconState :=
  let zeros := repeatN 0 (lenN (validators s)) in
  mkState (genesis_time s) (genesis_validators_root s) (slot s)
    (mkForkRec (fk_current_version (fork s)) (ALTAIR_FORK_VERSION E) epoch)
    (latest_block_header s) (block_roots s) (state_roots s) (historical_roots s) (eth1_data s) (eth1_data_votes s)
    (eth1_deposit_index s) (validators s) (balances s) (randao_mixes s) (slashings s)
    [] [] zeros zeros
    (justification_bits s) (previous_justified_checkpoint s) (current_justified_checkpoint s) (finalized_checkpoint s)
    zeros default_sync_committee default_sync_committee
    (default_payload_header E) 0 0 [] 0 0 0 0 0 0 [] [] [].

(** altair/fork.rs:51-130 *)
Definition upgrade_to_altair (s : BeaconState) : res BeaconState :=
  let! epoch := get_current_epoch E s in
  let! post := translate_participation (altair_base epoch s) (previous_epoch_attestations s) in
  let! c := get_next_sync_committee E post in
  Ok (set_next_sync_committee c (set_current_sync_committee c post)).

(** bellatrix/fork.rs:7-74 *)
Definition upgrade_to_bellatrix (s : BeaconState) : res BeaconState :=
  let! epoch := get_current_epoch E s in
  Ok (mkState (genesis_time s) (genesis_validators_root s) (slot s)
    (mkForkRec (fk_current_version (fork s)) (BELLATRIX_FORK_VERSION E) epoch)
    (latest_block_header s) (block_roots s) (state_roots s) (historical_roots s) (eth1_data s) (eth1_data_votes s)
    (eth1_deposit_index s) (validators s) (balances s) (randao_mixes s) (slashings s)
    [] [] (previous_epoch_participation s) (current_epoch_participation s)
    (justification_bits s) (previous_justified_checkpoint s) (current_justified_checkpoint s) (finalized_checkpoint s)
    (inactivity_scores s) (current_sync_committee s) (next_sync_committee s)
    (default_payload_header E) 0 0 [] 0 0 0 0 0 0 [] [] []).

(** capella/fork.rs:7-97 *)
Definition upgrade_to_capella (s : BeaconState) : res BeaconState :=
  let! epoch := get_current_epoch E s in
  let h := latest_execution_payload_header s in
  Ok (mkState (genesis_time s) (genesis_validators_root s) (slot s)
    (mkForkRec (fk_current_version (fork s)) (CAPELLA_FORK_VERSION E) epoch)
    (latest_block_header s) (block_roots s) (state_roots s) (historical_roots s) (eth1_data s) (eth1_data_votes s)
    (eth1_deposit_index s) (validators s) (balances s) (randao_mixes s) (slashings s)
    [] [] (previous_epoch_participation s) (current_epoch_participation s)
    (justification_bits s) (previous_justified_checkpoint s) (current_justified_checkpoint s) (finalized_checkpoint s)
    (inactivity_scores s) (current_sync_committee s) (next_sync_committee s)
    (mkPayloadHeader (eph_parent_hash h) (eph_fee_recipient h) (eph_state_root h) (eph_receipts_root h) (eph_logs_bloom h)
       (eph_prev_randao h) (eph_block_number h) (eph_gas_limit h) (eph_gas_used h) (eph_timestamp h) (eph_extra_data h)
       (eph_base_fee_per_gas h) (eph_block_hash h) (eph_transactions_root h) zero32 0 0 zero32 zero32)
    0 0 [] 0 0 0 0 0 0 [] [] []).

(** deneb/fork.rs:7-99 *)
Definition upgrade_to_deneb (s : BeaconState) : res BeaconState :=
  let! epoch := get_current_epoch E s in
  let h := latest_execution_payload_header s in
  Ok (mkState (genesis_time s) (genesis_validators_root s) (slot s)
    (mkForkRec (fk_current_version (fork s)) (DENEB_FORK_VERSION E) epoch)
    (latest_block_header s) (block_roots s) (state_roots s) (historical_roots s) (eth1_data s) (eth1_data_votes s)
    (eth1_deposit_index s) (validators s) (balances s) (randao_mixes s) (slashings s)
    [] [] (previous_epoch_participation s) (current_epoch_participation s)
    (justification_bits s) (previous_justified_checkpoint s) (current_justified_checkpoint s) (finalized_checkpoint s)
    (inactivity_scores s) (current_sync_committee s) (next_sync_committee s)
    (mkPayloadHeader (eph_parent_hash h) (eph_fee_recipient h) (eph_state_root h) (eph_receipts_root h) (eph_logs_bloom h)
       (eph_prev_randao h) (eph_block_number h) (eph_gas_limit h) (eph_gas_used h) (eph_timestamp h) (eph_extra_data h)
       (eph_base_fee_per_gas h) (eph_block_hash h) (eph_transactions_root h) (eph_withdrawals_root h) 0 0 zero32 zero32)
    (next_withdrawal_index s) (next_withdrawal_validator_index s) (historical_summaries s) 0 0 0 0 0 0 [] [] []).

(** electra/fork.rs:89-95 *)
Definition upgrade_earliest_exit (epoch : N) (vs : list Validator) : res N :=
  let l := filter (fun e => negb (e =? FAR_FUTURE_EPOCH)) (map v_exit_epoch vs) in
  add E (match l with [] => epoch | x :: t => maxN t x end) 1.

(** electra/fork.rs:97-139 *)
Definition electra_base (epoch earliest_exit earliest_consolidation : N) (s : BeaconState) : BeaconState :=
  let h := latest_execution_payload_header s in
  mkState (genesis_time s) (genesis_validators_root s) (slot s)
    (mkForkRec (fk_current_version (fork s)) (ELECTRA_FORK_VERSION E) epoch)
    (latest_block_header s) (block_roots s) (state_roots s) (historical_roots s) (eth1_data s) (eth1_data_votes s)
    (eth1_deposit_index s) (validators s) (balances s) (randao_mixes s) (slashings s)
    [] [] (previous_epoch_participation s) (current_epoch_participation s)
    (justification_bits s) (previous_justified_checkpoint s) (current_justified_checkpoint s) (finalized_checkpoint s)
    (inactivity_scores s) (current_sync_committee s) (next_sync_committee s)
    (mkPayloadHeader (eph_parent_hash h) (eph_fee_recipient h) (eph_state_root h) (eph_receipts_root h) (eph_logs_bloom h)
       (eph_prev_randao h) (eph_block_number h) (eph_gas_limit h) (eph_gas_used h) (eph_timestamp h) (eph_extra_data h)
       (eph_base_fee_per_gas h) (eph_block_hash h) (eph_transactions_root h) (eph_withdrawals_root h)
       (eph_blob_gas_used h) (eph_excess_blob_gas h) zero32 zero32)
    (next_withdrawal_index s) (next_withdrawal_validator_index s) (historical_summaries s)
    UNSET_DEPOSIT_RECEIPTS_START_INDEX 0 0 earliest_exit 0 earliest_consolidation [] [] [].

(** electra/fork.rs:143-155: (eligibility epoch, index) of the validators not yet activated, sorted *)
Fixpoint pre_activation_from (vs : list Validator) (i : N) : list (N * N) :=
  match vs with
  | [] => []
  | v :: t => (if v_activation_epoch v =? FAR_FUTURE_EPOCH then [(v_activation_eligibility_epoch v, i)] else [])
              ++ pre_activation_from t (i + 1)
  end.
(** electra/fork.rs:161-172 *)
Fixpoint compounding_from (vs : list Validator) (i : N) : list N :=
  match vs with
  | [] => []
  | v :: t => (if has_compounding_withdrawal_credential v then [i] else []) ++ compounding_from t (i + 1)
  end.

(** electra/fork.rs:140-175 *)
Definition electra_finish : St BeaconState unit :=
  let* a := rd (get_activation_exit_churn_limit E) in
  md (set_exit_balance_to_consume a) ;;
  let* c := rd (get_consolidation_churn_limit E) in
  md (set_consolidation_balance_to_consume c) ;;
  let* pre := rd (fun s => Ok (key_sort (pre_activation_from (validators s) 0))) in
  sfor pre (fun p => queue_entire_balance_and_reset_validator (snd p)) ;;
  let* comp := rd (fun s => Ok (compounding_from (validators s) 0)) in
  sfor comp (queue_excess_active_balance E).

(** electra/fork.rs:19-178 *)
Definition upgrade_to_electra (s : BeaconState) : res BeaconState :=
  let! epoch := get_current_epoch E s in
  let! ee := upgrade_earliest_exit epoch (validators s) in
  let! ec := compute_activation_exit_epoch E epoch in
  let (r, post) := electra_finish (electra_base epoch ee ec s) in
  let! _ := r in Ok post.

End WithEnv.
