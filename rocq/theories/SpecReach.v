(** * Specification vocabulary: facts every reachable state has

    Only fields, list membership and comparisons; no model function is used here. *)
From Verif Require Import Base Types Ctx Env SpecCommon.

(** the life of a validator: queued, activated, exited, withdrawable, in this order; an epoch that is not decided yet is
    FAR_FUTURE_EPOCH, the largest [u64].  A validator with an exit epoch is activated strictly before it, and a slashed validator has one *)
Record lifecycle (v : Validator) : Prop := mkLifecycle {
  lc_queued : v_activation_eligibility_epoch v <= v_activation_epoch v;
  lc_activated : v_activation_epoch v <= v_exit_epoch v;
  lc_exited : v_exit_epoch v <= v_withdrawable_epoch v;
  lc_epochs : v_withdrawable_epoch v <= FAR_FUTURE_EPOCH;
  lc_served : v_exit_epoch v <> FAR_FUTURE_EPOCH -> v_activation_epoch v < v_exit_epoch v;
  lc_slashed : v_slashed v = true -> v_exit_epoch v <> FAR_FUTURE_EPOCH }.

(** the checkpoints of a state are not in its future, nor is the electra exit queue beyond the last epoch there is *)
Definition checkpoints_past (E : Env) (s : BeaconState) : Prop :=
  cp_epoch (previous_justified_checkpoint s) <= epoch_of E s
  /\ cp_epoch (current_justified_checkpoint s) <= epoch_of E s
  /\ cp_epoch (finalized_checkpoint s) <= epoch_of E s.
Definition queue_epochs (s : BeaconState) : Prop :=
  earliest_exit_epoch s <= FAR_FUTURE_EPOCH /\ earliest_consolidation_epoch s <= FAR_FUTURE_EPOCH.

(** every index a state keeps for later refers to a validator: the electra queues and the place where the next withdrawal sweep starts *)
Record references_valid (s : BeaconState) : Prop := mkRefs {
  rv_deposits : forall d, In d (pending_balance_deposits s) -> pbd_index d < lenN (validators s);
  rv_withdrawals : forall w, In w (pending_partial_withdrawals s) -> ppw_index w < lenN (validators s);
  rv_consolidations : forall c, In c (pending_consolidations s) ->
    pc_source_index c < lenN (validators s) /\ pc_target_index c < lenN (validators s);
  rv_sweep : validators s <> [] -> next_withdrawal_validator_index s < lenN (validators s) }.

(** a sync committee has its full size and consists of keys of registered validators *)
Definition committee_valid (E : Env) (s : BeaconState) (c : SyncCommittee) : Prop :=
  lenN (sc_public_keys c) = SYNC_COMMITTEE_SIZE E
  /\ forall pk, In pk (sc_public_keys c) -> exists v, In v (validators s) /\ v_public_key v = pk.

(** a state as the interface leaves it.  The facts about epochs are those of a build with overflow checks: without them an epoch may wrap around *)
Record well_formed (E : Env) (f : Fork) (s : BeaconState) : Prop := mkWellFormed {
  n_len : lenN (balances s) = lenN (validators s);
  n_refs : references_valid s;
  n_zero : validators s = [] -> next_withdrawal_validator_index s = 0;
  n_sync : f <> Phase0 -> committee_valid E s (current_sync_committee s) /\ committee_valid E s (next_sync_committee s);
  n_past : chk E = true -> checkpoints_past E s;
  n_queue : chk E = true -> queue_epochs s;
  n_life : chk E = true -> forall v, In v (validators s) -> lifecycle v }.

(** the fixed-size vectors have their size *)
Definition vectors_sized (c : Ctx) (s : BeaconState) : Prop :=
  lenN (block_roots s) = SLOTS_PER_HISTORICAL_ROOT c
  /\ lenN (state_roots s) = SLOTS_PER_HISTORICAL_ROOT c
  /\ lenN (randao_mixes s) = EPOCHS_PER_HISTORICAL_VECTOR c
  /\ lenN (slashings s) = EPOCHS_PER_SLASHINGS_VECTOR c
  /\ lenN (justification_bits s) = 4.

(** the largest effective balance of a fork, and effective balances that respect it *)
Definition balance_cap (c : Ctx) (f : Fork) : N := match f with Electra => MAX_EFFECTIVE_BALANCE_ELECTRA c | _ => MAX_EFFECTIVE_BALANCE c end.
Definition effective_capped (c : Ctx) (f : Fork) (s : BeaconState) : Prop :=
  forall v, In v (validators s) -> v_effective_balance v mod EFFECTIVE_BALANCE_INCREMENT c = 0 /\ v_effective_balance v <= balance_cap c f.
(** the limits of the shipped configurations this needs *)
Definition caps_sane (c : Ctx) : Prop :=
  1 <= EFFECTIVE_BALANCE_INCREMENT c
  /\ MAX_EFFECTIVE_BALANCE c mod EFFECTIVE_BALANCE_INCREMENT c = 0
  /\ MAX_EFFECTIVE_BALANCE_ELECTRA c mod EFFECTIVE_BALANCE_INCREMENT c = 0
  /\ MIN_ACTIVATION_BALANCE c mod EFFECTIVE_BALANCE_INCREMENT c = 0
  /\ MIN_ACTIVATION_BALANCE c <= MAX_EFFECTIVE_BALANCE c <= MAX_EFFECTIVE_BALANCE_ELECTRA c.

(** ** Amounts of a realistic state

    What [block_bounds] of SpecCrash asks for beyond the facts above: numbers far below 2^64, and processed deposits that do not exceed the adopted count.
    In a build without overflow checks, where an epoch could have wrapped, also the order of the first two epochs of an activated validator. *)
Record realistic (E : Env) (f : Fork) (s : BeaconState) : Prop := mkRealistic {
  re_registry : 1 <= lenN (validators s) < 2 ^ 39;
  re_slot : slot s < 2 ^ 56;
  re_stake : sumN (map v_effective_balance (validators s)) < 3 * 2 ^ 55;
  re_balances : forall b, In b (balances s) -> b < 2 ^ 60;
  re_slashings : forall x, In x (slashings s) -> x < 2 ^ 60;
  re_exits : forall v, In v (validators s) -> v_exit_epoch v <> FAR_FUTURE_EPOCH -> v_exit_epoch v < 2 ^ 61;
  re_genesis : genesis_time s < 2 ^ 62;
  re_withdrawals : next_withdrawal_index s < 2 ^ 62;
  re_eth1 : lenN (eth1_data_votes s) < 2 ^ 60 /\ eth1_deposit_index s < 2 ^ 62 /\ eth1_deposit_index s <= e1_deposit_count (eth1_data s);
  re_unchecked : chk E = false ->
    forall v, In v (validators s) -> v_activation_epoch v <> FAR_FUTURE_EPOCH -> v_activation_eligibility_epoch v <= v_activation_epoch v }.
(** electra: the queues hold realistic amounts *)
Record realistic_queues (s : BeaconState) : Prop := mkRealisticQueues {
  rq_exit : earliest_exit_epoch s < 2 ^ 60 /\ exit_balance_to_consume s < 2 ^ 60;
  rq_consolidation : earliest_consolidation_epoch s < 2 ^ 60 /\ consolidation_balance_to_consume s < 2 ^ 60;
  rq_partial : lenN (pending_partial_withdrawals s) <= 2 ^ 32;
  rq_amounts : forall i, sumN (map ppw_amount (filter (fun w => ppw_index w =? i) (pending_partial_withdrawals s))) < 2 ^ 62 }.
