(** * Specification vocabulary for electra: balance churn *)
From Verif Require Import Base Types Ctx Env SpecCommon SpecHelpers.

(** what a sane configuration satisfies in addition for electra *)
Definition ctx_sane_electra (c : Ctx) : Prop :=
  EFFECTIVE_BALANCE_INCREMENT c <= MIN_PER_EPOCH_CHURN_LIMIT_ELECTRA c <= 2 ^ 56
  /\ EFFECTIVE_BALANCE_INCREMENT c <= MAX_PER_EPOCH_ACTIVATION_EXIT_CHURN_LIMIT c <= 2 ^ 56
  /\ EFFECTIVE_BALANCE_INCREMENT c <= MIN_ACTIVATION_BALANCE c <= MAX_EFFECTIVE_BALANCE_ELECTRA c.

(** total effective balance of the active validators, with the floor the protocol uses *)
Definition active_balance (E : Env) (s : BeaconState) : N :=
  N.max (effective_sum s (active_set s (epoch_of E s))) (EFFECTIVE_BALANCE_INCREMENT E).
Definition active_balance_fits (E : Env) (s : BeaconState) : Prop :=
  effective_sum s (active_set s (epoch_of E s)) < 2 ^ 64.
(** balance that may enter or leave per epoch, rounded down to the increment *)
Definition balance_churn (E : Env) (s : BeaconState) : N :=
  let c := N.max (MIN_PER_EPOCH_CHURN_LIMIT_ELECTRA E) (active_balance E s / CHURN_LIMIT_QUOTIENT E) in
  c - c mod EFFECTIVE_BALANCE_INCREMENT E.
(** share of it for activations and exits; the rest is for consolidations *)
Definition exit_churn (E : Env) (s : BeaconState) : N := N.min (MAX_PER_EPOCH_ACTIVATION_EXIT_CHURN_LIMIT E) (balance_churn E s).
Definition consolidation_churn (E : Env) (s : BeaconState) : N := balance_churn E s - exit_churn E s.

(** first epoch that can still take exits, what is left of it, and the balance that can still leave until epoch [e] *)
Definition exit_queue_start (E : Env) (s : BeaconState) : N := N.max (earliest_exit_epoch s) (earliest_exit E s).
Definition exit_queue_budget (E : Env) (s : BeaconState) : N :=
  if earliest_exit_epoch s <? earliest_exit E s then exit_churn E s else exit_balance_to_consume s.
Definition exit_capacity (E : Env) (s : BeaconState) (e : N) : N :=
  exit_queue_budget E s + (e - exit_queue_start E s) * exit_churn E s.

(** effective balance of the validators that had no exit epoch in [vs] and leave at or before [e] according to [vs'] *)
Fixpoint leaving (vs vs' : list Validator) (e : N) : N :=
  match vs, vs' with
  | v :: t, v' :: t' =>
    (if (v_exit_epoch v =? FAR_FUTURE_EPOCH) && negb (v_exit_epoch v' =? FAR_FUTURE_EPOCH) && (v_exit_epoch v' <=? e)
     then v_effective_balance v else 0) + leaving t t' e
  | _, _ => 0
  end.
(** effective balance of the validators without exit epoch *)
Definition staying (vs : list Validator) : N :=
  sumN (map v_effective_balance (filter (fun v => v_exit_epoch v =? FAR_FUTURE_EPOCH) vs)).
