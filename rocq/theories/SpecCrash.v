(** * Specification vocabulary: states and blocks on which block processing must not crash

    Only fields, sums and comparisons; no model function is used here. *)
From Verif Require Import Base Types Ctx Env SpecCommon SpecHelpers SpecShuffle SpecElectra SpecOps SpecAtt SpecBlock SpecFlow SpecFinality SpecSlots SpecEpoch SpecRegistry SpecQueues SpecPhase0 SpecTotal.

(** the limits of the shipped configurations that block processing divides or multiplies by *)
Definition block_scale (c : Ctx) : Prop :=
  1 <= SYNC_COMMITTEE_SIZE c <= 2 ^ 16
  /\ SECONDS_PER_SLOT c <= 2 ^ 6
  /\ SHARD_COMMITTEE_PERIOD c <= 2 ^ 32
  /\ voting_period c < 2 ^ 62
  /\ withdrawal_limits c.

(** the root of the fork data, whose first 28 bytes become part of a signature domain, has 32 bytes *)
Definition roots_wide (E : Env) : Prop := forall version root r, htr E (OForkData version root) = Some r -> 32 <= lenN r.

(** every key of the current sync committee belongs to a registered validator *)
Definition committee_registered (s : BeaconState) : Prop :=
  forall pk, In pk (sc_public_keys (current_sync_committee s)) -> exists v, In v (validators s) /\ v_public_key v = pk.

(** electra: the partial withdrawal queue names registered validators, and no validator has an absurd amount queued *)
Definition pending_sound (s : BeaconState) (L : N) : Prop :=
  (forall w, In w (pending_partial_withdrawals s) -> ppw_index w < L) /\ (forall i, pending_balance_of s i < 2 ^ 62).

(** a state block processing may start from: sizes fixed by the SSZ types, amounts below 2^60 Gwei (the supply is below 2^57), epochs
    below 2^61, and the facts every reachable state has: activated validators were queued before, the sync committee is made of
    registered validators, the withdrawal sweep points into the registry *)
Record block_bounds (E : Env) (f : Fork) (s : BeaconState) : Prop := mkBlockBounds {
  bb_shape : state_shape E s;
  bb_room : lenN (validators s) < 2 ^ 39;
  bb_slot : slot_small s;
  bb_aligned : registry_aligned f s;
  bb_effective : forall v, In v (validators s) ->
    v_effective_balance v <= match f with Electra => MAX_EFFECTIVE_BALANCE_ELECTRA E | _ => MAX_EFFECTIVE_BALANCE E end;
  bb_stake : registered_stake s < 3 * 2 ^ 55;
  bb_balances : forall b, In b (balances s) -> b < 2 ^ 60;
  bb_slashings : forall x, In x (slashings s) -> x < 2 ^ 60;
  bb_exits : exits_below s (2 ^ 61);
  bb_queued : forall v, In v (validators s) -> v_activation_epoch v <> FAR_FUTURE_EPOCH -> v_activation_eligibility_epoch v <= v_activation_epoch v;
  bb_committee : f <> Phase0 -> committee_registered s /\ lenN (sc_public_keys (current_sync_committee s)) <= SYNC_COMMITTEE_SIZE E;
  bb_genesis : genesis_time s < 2 ^ 62;
  bb_sweep : from_capella f -> next_withdrawal_validator_index s < lenN (validators s) /\ next_withdrawal_index s < 2 ^ 62;
  bb_eth1 : lenN (eth1_data_votes s) < 2 ^ 60 /\ eth1_deposit_index s < 2 ^ 62 /\ eth1_deposit_index s <= e1_deposit_count (eth1_data s) }.

(** a block that fits its SSZ type: the operation lists are short, and no more ETH is deposited than exists *)
Definition block_fits (b : BeaconBlockBody) : Prop :=
  lenN (bb_proposer_slashings b) <= 2 ^ 8
  /\ sumN (map (fun op => lenN (ia_attesting_indices (as_1 op))) (bb_attester_slashings b)) <= 2 ^ 17
  /\ lenN (bb_attestations b) <= 2 ^ 8
  /\ lenN (bb_deposits b) <= 2 ^ 8
  /\ lenN (bb_voluntary_exits b) <= 2 ^ 8
  /\ sumN (map (fun d => dd_amount (dep_data d)) (bb_deposits b)) < 2 ^ 60.

(** eth1 data that is adopted through the vote of [b] does not undo processed deposits *)
Definition vote_keeps_deposits (E : Env) (b : BeaconBlockBody) (s : BeaconState) : Prop :=
  has_majority E (bb_eth1_data b) (eth1_data_votes s ++ [bb_eth1_data b]) -> eth1_deposit_index s <= e1_deposit_count (bb_eth1_data b).

(** ** electra *)
(** the queues electra adds: exit queue within 2^60 epochs and Gwei, pending partial withdrawals for registered validators *)
Definition queues_sound (s : BeaconState) : Prop :=
  earliest_exit_epoch s < 2 ^ 60 /\ exit_balance_to_consume s < 2 ^ 60
  /\ pending_sound s (lenN (validators s)) /\ lenN (pending_partial_withdrawals s) <= 2 ^ 32
  /\ earliest_consolidation_epoch s < 2 ^ 60 /\ consolidation_balance_to_consume s < 2 ^ 60.
(** the operations electra adds fit their SSZ types *)
Definition requests_fit (b : BeaconBlockBody) : Prop :=
  lenN (ep_withdrawal_requests (bb_execution_payload b)) <= 2 ^ 8 /\ lenN (ep_deposit_receipts (bb_execution_payload b)) <= 2 ^ 13
  /\ lenN (bb_consolidations b) <= 2 ^ 8.

(** ** crossing the end of an epoch *)
(** at most 3.3 million validators (of 32 ETH), no more than 2^58 Gwei in their balances, and the next sync committee consists of registered validators too *)
Record next_epoch_bounds (E : Env) (f : Fork) (s : BeaconState) : Prop := mkNextEpoch {
  ne_registry : lenN (validators s) * MAX_EFFECTIVE_BALANCE E < 3 * 2 ^ 55;
  ne_balances : sumN (balances s) < 2 ^ 58;
  ne_exits : exits_below s (2 ^ 60);
  ne_committee : f <> Phase0 -> (forall pk, In pk (sc_public_keys (next_sync_committee s)) -> exists v, In v (validators s) /\ v_public_key v = pk)
    /\ lenN (sc_public_keys (next_sync_committee s)) <= SYNC_COMMITTEE_SIZE E }.

(** electra: the whole stake counts, not the number of validators.  3 * 2^55 Gwei are 108 million ETH, so this admits 50 million staked; the exit queue
    is shorter than 2^59 epochs *)
Record next_epoch_electra (E : Env) (s : BeaconState) : Prop := mkNextElectra {
  nx_stake : registered_stake s + held Electra s + lenN (validators s) * EFFECTIVE_BALANCE_INCREMENT E < 3 * 2 ^ 55;
  nx_exits : exits_below s (2 ^ 59);
  nx_queue : earliest_exit_epoch s < 2 ^ 59;
  nx_committee : (forall pk, In pk (sc_public_keys (next_sync_committee s)) -> exists v, In v (validators s) /\ v_public_key v = pk)
    /\ lenN (sc_public_keys (next_sync_committee s)) <= SYNC_COMMITTEE_SIZE E }.
(** an effective balance follows its balance at a distance of at most one increment *)
Definition narrow_band (c : Ctx) : Prop := HYSTERESIS_DOWNWARD_MULTIPLIER c <= HYSTERESIS_QUOTIENT c.
