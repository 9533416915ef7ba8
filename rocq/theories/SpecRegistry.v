(** * Specification vocabulary: the registry over time

    Independent of the processing functions: only fields of states and validators are mentioned. *)
From Verif Require Import Base Types Ctx Env.

(** the per-validator columns have one entry per registered validator; phase0 states have only the balances *)
Definition registry_aligned (f : Fork) (s : BeaconState) : Prop :=
  lenN (balances s) = lenN (validators s)
  /\ (f <> Phase0 ->
        lenN (previous_epoch_participation s) = lenN (validators s)
        /\ lenN (current_epoch_participation s) = lenN (validators s)
        /\ lenN (inactivity_scores s) = lenN (validators s)).

(** no two registered validators have the same public key *)
Definition unique_keys (s : BeaconState) : Prop := NoDup (map v_public_key (validators s)).

(** first byte of the withdrawal credentials *)
Definition credential_kind (v : Validator) : option N := nthN (v_withdrawal_credentials v) 0.

(** [v'] is a later record of the validator recorded as [v]: what may never be undone *)
Definition later_record (v v' : Validator) : Prop :=
  v_public_key v' = v_public_key v
  /\ (v_slashed v = true -> v_slashed v' = true)
  /\ (v_activation_eligibility_epoch v <> FAR_FUTURE_EPOCH ->
        v_activation_eligibility_epoch v' = v_activation_eligibility_epoch v)
  /\ (v_activation_epoch v <> FAR_FUTURE_EPOCH -> v_activation_epoch v' = v_activation_epoch v)
  /\ (v_exit_epoch v <> FAR_FUTURE_EPOCH ->
        v_exit_epoch v' = v_exit_epoch v /\ v_withdrawable_epoch v <= v_withdrawable_epoch v').

(** withdrawal credentials only move from a BLS key (0) to an execution address (1), and from there to a compounding
    address (2), keeping the address; any other credential never changes *)
Definition later_credentials (v v' : Validator) : Prop :=
  v_withdrawal_credentials v' = v_withdrawal_credentials v
  \/ (credential_kind v = Some 0 /\ (credential_kind v' = Some 1 \/ credential_kind v' = Some 2))
  \/ (credential_kind v = Some 1 /\ credential_kind v' = Some 2
      /\ skipn 1 (v_withdrawal_credentials v') = skipn 1 (v_withdrawal_credentials v)).

(** every validator of [s] is still registered in [s'], at the same index, with a later record *)
Definition registry_later (s s' : BeaconState) : Prop :=
  forall i v, nthN (validators s) i = Some v ->
    exists v', nthN (validators s') i = Some v' /\ later_record v v' /\ later_credentials v v'.

(** across the upgrade to electra the eligibility epoch of validators that were never activated may be withdrawn *)
Definition later_record_across (v v' : Validator) : Prop :=
  v_public_key v' = v_public_key v
  /\ (v_slashed v = true -> v_slashed v' = true)
  /\ (v_activation_epoch v <> FAR_FUTURE_EPOCH ->
        v_activation_epoch v' = v_activation_epoch v
        /\ (v_activation_eligibility_epoch v <> FAR_FUTURE_EPOCH ->
              v_activation_eligibility_epoch v' = v_activation_eligibility_epoch v))
  /\ (v_exit_epoch v <> FAR_FUTURE_EPOCH ->
        v_exit_epoch v' = v_exit_epoch v /\ v_withdrawable_epoch v <= v_withdrawable_epoch v').
Definition registry_later_across (s s' : BeaconState) : Prop :=
  forall i v, nthN (validators s) i = Some v ->
    exists v', nthN (validators s') i = Some v' /\ later_record_across v v' /\ later_credentials v v'.
