(** * Specification vocabulary shared by the property statements

    Only lists, filters, sums and comparisons; no model function is used here. *)
From Verif Require Import Base Types Ctx Env.

(** a validator is active in epoch [e] *)
Definition active_at (e : N) (v : Validator) : bool :=
  (v_activation_epoch v <=? e) && (e <? v_exit_epoch v).

(** the indices [i] of the elements of [l] that satisfy [p], in increasing order *)
Definition indices_where {A} (p : A -> bool) (l : list A) : list N :=
  filter (fun i => match nthN l i with Some x => p x | None => false end) (rangeN (lenN l)).

Definition active_set (s : BeaconState) (e : N) : list N := indices_where (active_at e) (validators s).

(** total effective balance of a list of validator indices *)
Definition effective_balance_of (s : BeaconState) (i : N) : N :=
  match nthN (validators s) i with Some v => v_effective_balance v | None => 0 end.
Definition effective_sum (s : BeaconState) (l : list N) : N := sumN (map (effective_balance_of s) l).

Definition epoch_of (E : Env) (s : BeaconState) : N := slot s / SLOTS_PER_EPOCH E.
Definition prev_epoch_of (E : Env) (s : BeaconState) : N := epoch_of E s - 1.

(** what a sane configuration satisfies; [ctx_sane_networks] (in Examples) checks it for every shipped network *)
Definition ctx_sane (c : Ctx) : Prop :=
  1 <= SLOTS_PER_EPOCH c <= 2 ^ 12
  /\ 1 <= TARGET_COMMITTEE_SIZE c <= 2 ^ 16
  /\ 1 <= MAX_COMMITTEES_PER_SLOT c <= 2 ^ 8
  /\ 1 <= CHURN_LIMIT_QUOTIENT c <= 2 ^ 32
  /\ 1 <= MIN_PER_EPOCH_CHURN_LIMIT c <= 2 ^ 16
  /\ MIN_SEED_LOOKAHEAD c < EPOCHS_PER_HISTORICAL_VECTOR c <= 2 ^ 32
  /\ 1 <= SLOTS_PER_HISTORICAL_ROOT c <= 2 ^ 32
  /\ 1 <= EPOCHS_PER_SLASHINGS_VECTOR c <= 2 ^ 32
  /\ 1 <= SHUFFLE_ROUND_COUNT c <= 256
  /\ MAX_SEED_LOOKAHEAD c <= 2 ^ 16
  /\ MIN_VALIDATOR_WITHDRAWABILITY_DELAY c <= 2 ^ 32
  /\ 1 <= EFFECTIVE_BALANCE_INCREMENT c <= 2 ^ 32
  /\ EFFECTIVE_BALANCE_INCREMENT c <= MAX_EFFECTIVE_BALANCE c <= 2 ^ 40
  /\ EFFECTIVE_BALANCE_INCREMENT c <= MAX_EFFECTIVE_BALANCE_ELECTRA c <= 2 ^ 44.

(** sizes of the vectors of a state: what SSZ decoding guarantees for every state of the Rust type *)
Definition state_shape (c : Ctx) (s : BeaconState) : Prop :=
  lenN (block_roots s) = SLOTS_PER_HISTORICAL_ROOT c
  /\ lenN (state_roots s) = SLOTS_PER_HISTORICAL_ROOT c
  /\ lenN (randao_mixes s) = EPOCHS_PER_HISTORICAL_VECTOR c
  /\ lenN (slashings s) = EPOCHS_PER_SLASHINGS_VECTOR c
  /\ lenN (justification_bits s) = 4
  /\ lenN (validators s) <= 2 ^ 40.

(** numeric range used by theorems that exclude overflow: 2^56 slots is about 27 billion years *)
Definition slot_small (s : BeaconState) : Prop := slot s < 2 ^ 56.
