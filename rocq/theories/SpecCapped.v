(** * Specification vocabulary: caps on voting weight *)
From Verif Require Import Base Types Ctx Env Helpers SpecCommon SpecEpoch.

(** the voting weight (effective balance) of [v] is within its cap and a whole number of increments *)
Definition well_weighed (E : Env) (f : Fork) (v : Validator) : Prop :=
  v_effective_balance v <= balance_cap E f v /\ v_effective_balance v mod EFFECTIVE_BALANCE_INCREMENT E = 0.
(** the caps are whole numbers of increments, and later ones are not below earlier ones *)
Definition caps_sane (c : Ctx) : Prop :=
  EFFECTIVE_BALANCE_INCREMENT c <> 0 /\ MAX_EFFECTIVE_BALANCE c <= MIN_ACTIVATION_BALANCE c /\ MIN_ACTIVATION_BALANCE c <= MAX_EFFECTIVE_BALANCE_ELECTRA c
  /\ MAX_EFFECTIVE_BALANCE c mod EFFECTIVE_BALANCE_INCREMENT c = 0 /\ MIN_ACTIVATION_BALANCE c mod EFFECTIVE_BALANCE_INCREMENT c = 0
  /\ MAX_EFFECTIVE_BALANCE_ELECTRA c mod EFFECTIVE_BALANCE_INCREMENT c = 0.
