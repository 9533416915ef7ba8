(** * Specification vocabulary: voting weight and balance *)
From Verif Require Import Base Types Ctx Env Helpers SpecCommon SpecEpoch.

(** the voting weight (effective balance) of [v] follows its balance [b]: it is above the balance by no more than the downward margin of the hysteresis, and below it by
    no more than the upward margin unless it is at the cap *)
Definition follows (E : Env) (f : Fork) (v : Validator) (b : N) : Prop :=
  let h := EFFECTIVE_BALANCE_INCREMENT E / HYSTERESIS_QUOTIENT E in
  v_effective_balance v <= b + h * HYSTERESIS_DOWNWARD_MULTIPLIER E
  /\ (b <= v_effective_balance v + h * HYSTERESIS_UPWARD_MULTIPLIER E \/ v_effective_balance v = balance_cap E f v).
(** the upward margin is at least one increment *)
Definition margin_sane (c : Ctx) : Prop := EFFECTIVE_BALANCE_INCREMENT c <= EFFECTIVE_BALANCE_INCREMENT c / HYSTERESIS_QUOTIENT c * HYSTERESIS_UPWARD_MULTIPLIER c.
