(** * Specification vocabulary: states on which epoch processing must not fail

    Only fields, sums and comparisons; no model function is used here. *)
From Verif Require Import Base Types Ctx Env SpecCommon SpecHelpers SpecElectra SpecOps SpecAtt SpecFinality SpecSlots SpecEpoch SpecRegistry SpecQueues SpecPhase0.

(** the scale of the shipped configurations (checked for each of them in PropsTotal) *)
Definition mainnet_scale (c : Ctx) : Prop :=
  2 <= SLOTS_PER_EPOCH c
  /\ EFFECTIVE_BALANCE_INCREMENT c = 1000000000
  /\ BASE_REWARD_FACTOR c <= 64
  /\ MAX_EFFECTIVE_BALANCE c <= 32 * 1000000000
  /\ MAX_EFFECTIVE_BALANCE_ELECTRA c <= 2048 * 1000000000
  /\ 1 <= MAX_SEED_LOOKAHEAD c
  /\ PROPORTIONAL_SLASHING_MULTIPLIER c <= 3 /\ PROPORTIONAL_SLASHING_MULTIPLIER_ALTAIR c <= 3 /\ PROPORTIONAL_SLASHING_MULTIPLIER_BELLATRIX c <= 3
  /\ 1 <= INACTIVITY_SCORE_BIAS c <= 2 ^ 16 /\ 1 <= PROPOSER_REWARD_QUOTIENT c
  /\ 1 <= INACTIVITY_PENALTY_QUOTIENT c <= 2 ^ 40 /\ 1 <= INACTIVITY_PENALTY_QUOTIENT_ALTAIR c <= 2 ^ 40 /\ 1 <= INACTIVITY_PENALTY_QUOTIENT_BELLATRIX c <= 2 ^ 40.

(** total effective balance of the registry *)
Definition registered_stake (s : BeaconState) : N := sumN (map v_effective_balance (validators s)).
(** balances and, in electra, balances on their way *)
Definition held (f : Fork) (s : BeaconState) : N :=
  sumN (balances s) + match f with Electra => queue_total (pending_balance_deposits s) | _ => 0 end.

(** a state of realistic size: 2^57 Gwei are 144 million ETH, more than the supply; inactivity scores grow by 4 per epoch, so 2^22
    takes over 12 years of leak.  In electra the recent slashings are bounded by 2^50 Gwei, 1.1 million ETH: beyond a few million the
    product in the correlation penalty of a 2048 ETH validator no longer fits in 64 bits.  In phase0 the epoch number is below 2^28,
    over 3000 years *)
Record within_bounds (E : Env) (f : Fork) (s : BeaconState) : Prop := mkWithin {
  wb_shape : state_shape E s;
  wb_slot : slot_small s;
  wb_aligned : registry_aligned f s;
  wb_effective : forall v, In v (validators s) ->
    v_effective_balance v <= match f with Electra => MAX_EFFECTIVE_BALANCE_ELECTRA E | _ => MAX_EFFECTIVE_BALANCE E end;
  wb_stake : registered_stake s < 2 ^ 57;
  wb_turnover : effective_sum s (active_set s (prev_epoch_of E s)) <= 2 * active_balance E s;
  wb_scores : forall x, In x (inactivity_scores s) -> x < 2 ^ 22;
  wb_slashings : sumN (slashings s) < match f with Electra => 2 ^ 50 | _ => 2 ^ 62 end;
  wb_held : held f s < 2 ^ 61;
  wb_exits : registry_room E f s;
  wb_finality : finality_ordered E s;
  wb_queues : f = Electra -> (forall d, In d (pending_balance_deposits s) -> pbd_index d < lenN (balances s))
    /\ deposit_balance_to_consume s < 2 ^ 62 /\ consolidations_sound s;
  wb_votes : f = Phase0 -> previous_votes_sound E s /\ (forall a, In a (current_epoch_attestations s) -> pending_recorded E s a) /\ epoch_of E s < 2 ^ 28 }.

(** merkleization does not fail; it fails in the code only for values that exceed the bounds of their SSZ type *)
Definition hashing_total (E : Env) : Prop := forall o, htr E o <> None.
