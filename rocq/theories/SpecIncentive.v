(** * Specification vocabulary for C95: what voting and not voting does to balances

    Only fields, lists and arithmetic; no model function is used here. *)
From Verif Require Import Base Types Ctx Env SpecCommon SpecShuffle SpecHelpers SpecElectra SpecOps SpecAtt SpecFinality SpecSlots SpecRegistry SpecEpoch SpecPhase0.

(** the states for which C32 gives the balances after the rewards step: columns of equal length, past the genesis epoch, finality not in the future, sums that fit *)
Definition rewards_ready (E : Env) (f : Fork) (s : BeaconState) : Prop :=
  ctx_sane E /\ ctx_sane_att E /\ f <> Phase0 /\ epoch_of E s <> 0 /\ registry_aligned f s
  /\ cp_epoch (finalized_checkpoint s) <= prev_epoch_of E s /\ stake_fits s /\ rewards_fit E f s.
Definition rewards_ready_phase0 (E : Env) (s : BeaconState) : Prop :=
  ctx_sane E /\ ctx_sane_att E /\ hash_wf (hash E) /\ state_shape E s /\ slot_small s /\ 0 < slot s mod SLOTS_PER_EPOCH E
  /\ epoch_of E s <> 0 /\ lenN (balances s) = lenN (validators s) /\ cp_epoch (finalized_checkpoint s) <= prev_epoch_of E s
  /\ stake_fits s /\ rewards_fit_phase0 E s /\ previous_votes_sound E s.

(** source, target and head votes of the previous epoch, all timely *)
Definition voted_fully (E : Env) (s : BeaconState) (i : N) : Prop := forall k, k < 3 -> voted_flag E s k i = true.
Definition voted_nothing (E : Env) (s : BeaconState) (i : N) : Prop := forall k, k < 3 -> voted_flag E s k i = false.
(** validator [j] voted at most as well as validator [i] *)
Definition votes_at_most (E : Env) (s : BeaconState) (j i : N) : Prop := forall k, k < 3 -> voted_flag E s k j = true -> voted_flag E s k i = true.

(** the reward unit per increment of stake, and stakes in increments *)
Definition unit_reward (E : Env) (s : BeaconState) : N := EFFECTIVE_BALANCE_INCREMENT E * BASE_REWARD_FACTOR E / N.sqrt (active_balance E s).
Definition active_units (E : Env) (s : BeaconState) : N := active_balance E s / EFFECTIVE_BALANCE_INCREMENT E.
Definition voter_units (E : Env) (s : BeaconState) (k : N) : N := flag_stake E s k / EFFECTIVE_BALANCE_INCREMENT E.

(** a phase0 vote of [i] for the previous epoch: any, with the right target, with the right head *)
Definition voted0 (E : Env) (s : BeaconState) (right : PendingAttestation -> Prop) (i : N) : Prop :=
  (exists v, nthN (validators s) i = Some v /\ v_slashed v = false) /\ exists a, In a (previous_epoch_attestations s) /\ right a /\ attests E s a i.
