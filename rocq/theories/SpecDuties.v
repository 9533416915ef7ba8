(** * Specification vocabulary: how long in advance duties are known

    Only epochs and comparisons; no model function is used here. *)
From Verif Require Import Base Types Ctx Env SpecCommon SpecFinality.

(** the seed of epoch [e] comes from the randao mix of epoch [e - MIN_SEED_LOOKAHEAD - 1], in a ring of EPOCHS_PER_HISTORICAL_VECTOR
    mixes.  A state still holds it until the ring comes round: epoch processing overwrites the place of the epoch after the current one *)
Definition seed_available (E : Env) (s : BeaconState) (e : N) : Prop :=
  epoch_of E s + 1 + (MIN_SEED_LOOKAHEAD E + 1) < e + EPOCHS_PER_HISTORICAL_VECTOR E.
(** in state [s] the committees of epoch [e] are decided *)
Definition committees_decided (E : Env) (s : BeaconState) (e : N) : Prop := e <= epoch_of E s + MIN_SEED_LOOKAHEAD E.
(** in state [s] it is decided who is active in epoch [e] *)
Definition activity_decided (E : Env) (s : BeaconState) (e : N) : Prop := e <= epoch_of E s + MAX_SEED_LOOKAHEAD E.
(** what the shipped configurations satisfy *)
Definition lookahead_sane (c : Ctx) : Prop :=
  MIN_SEED_LOOKAHEAD c <= MAX_SEED_LOOKAHEAD c /\ MIN_SEED_LOOKAHEAD c + 2 < EPOCHS_PER_HISTORICAL_VECTOR c.

(** the phase0 votes [l] are votes of epoch [e] that block processing could accept: each names a committee of its slot, carries one bit
    per member, was included at least one slot later by an existing validator, and has the checkpoint of [e] as target *)
Definition votes_of_epoch (E : Env) (s : BeaconState) (e : N) (l : list PendingAttestation) : Prop :=
  forall a, In a l -> pending_recorded E s a /\ ad_slot (pa_data a) / SLOTS_PER_EPOCH E = e
    /\ pa_proposer_index a < lenN (validators s) /\ 1 <= pa_inclusion_delay a /\ cp_epoch (ad_target (pa_data a)) = e.
(** the two vote lists of a phase0 state *)
Definition votes_sound (E : Env) (s : BeaconState) : Prop :=
  votes_of_epoch E s (epoch_of E s) (current_epoch_attestations s) /\ votes_of_epoch E s (prev_epoch_of E s) (previous_epoch_attestations s).
