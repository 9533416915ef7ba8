(** * Specification vocabulary: how a validator enters the registry and becomes active *)
From Verif Require Import Base Types Ctx Env Block Epoch Transition Upgrade SpecCommon SpecHelpers SpecElectra SpecOps SpecBlock SpecFlow SpecAtt SpecQueues SpecFinality SpecSafety SpecAuthority.

(** block [b] has a deposit, through the contract or (electra) by receipt, for the key [pk] and signed with it *)
Definition signed_to_join (E : Env) (f : Fork) (b : BeaconBlock) (pk : bytes) : Prop :=
  exists wc amount sig, deposit_signed E pk wc amount sig
    /\ ((exists d, In d (bb_deposits (bk_body b)) /\ dd_public_key (dep_data d) = pk /\ dd_withdrawal_credentials (dep_data d) = wc
                   /\ dd_amount (dep_data d) = amount /\ dd_signature (dep_data d) = sig)
        \/ (f = Electra /\ exists r, In r (ep_deposit_receipts (bb_execution_payload (bk_body b))) /\ dr_public_key r = pk /\ dr_withdrawal_credentials r = wc
                   /\ dr_amount r = amount /\ dr_signature r = sig)).

(** the effective balance a validator needs to be put in line for activation *)
Definition full_balance (E : Env) (f : Fork) (v : Validator) : Prop :=
  match f with
  | Electra => MIN_ACTIVATION_BALANCE E <= v_effective_balance v
  | _ => v_effective_balance v = MAX_EFFECTIVE_BALANCE E
  end.

(** ending an epoch takes [s] to [t] in a chain of calls *)
Definition epoch_ends (E : Env) (l : list (Fork * BeaconState)) (f : Fork) (s t : BeaconState) : Prop :=
  passes l (f, s) (f, t) /\ process_slots E f (slot s + 1) s = (Ok tt, t) /\ (slot s + 1) mod SLOTS_PER_EPOCH E = 0.

(** validator [i] is put in line between [s] and [t] *)
Definition lines_up (E : Env) (f : Fork) (s t : BeaconState) (i : N) : Prop :=
  exists v v', nthN (validators s) i = Some v /\ nthN (validators t) i = Some v'
    /\ v_activation_eligibility_epoch v = FAR_FUTURE_EPOCH /\ full_balance E f v
    /\ v_activation_eligibility_epoch v' = epoch_of E s + 1.
(** validator [i] is given an activation epoch between [s] and [t]: it has been in line since an epoch that is finalized in [t] *)
Definition activates (E : Env) (s t : BeaconState) (i : N) : Prop :=
  exists v v', nthN (validators s) i = Some v /\ nthN (validators t) i = Some v'
    /\ v_activation_epoch v = FAR_FUTURE_EPOCH
    /\ v_activation_eligibility_epoch v' <= cp_epoch (finalized_checkpoint t)
    /\ v_activation_epoch v' = epoch_of E s + 1 + MAX_SEED_LOOKAHEAD E.
