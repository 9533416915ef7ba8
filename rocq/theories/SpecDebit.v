(** * Specification vocabulary: what may lower a validator's balance in a block *)
From Verif Require Import Base Types Ctx Env Block Epoch Transition Upgrade SpecCommon SpecHelpers SpecElectra SpecOps SpecBlock SpecEpoch SpecFlow SpecAtt SpecQueues SpecFinality SpecSafety SpecAuthority.

Section Block.
Context (E : Env) (f : Fork) (s : BeaconState) (b : BeaconBlock).
Let body := bk_body b.
(** the payload pays validator [i] what is due to it, to the address in its credentials ([due_at] is characterised by C42_due) *)
Definition paid_out (i : N) : Prop :=
  fork_le Capella f = true /\ exists w, In w (ep_withdrawals (bb_execution_payload body)) /\ w_validator_index w = i
    /\ due_at E f s i = Some (w_amount w) /\ w_address w = execution_address s i.
(** the key of [v] has a seat in the sync committee, and the block does not have its signature *)
Definition missed_sync (v : Validator) : Prop :=
  fork_le Altair f = true /\ exists k, nthN (sc_public_keys (current_sync_committee s)) k = Some (v_public_key v)
    /\ nthN (sa_bits (bb_sync_aggregate body)) k = Some false.
(** the causes: paid out, slashed on evidence in the block, absent from the sync committee; in electra, a deposit signed with the key of [v] that makes the
    validator compounding, which moves the excess over the activation balance to the queue of deposits *)
Definition debit_due (i : N) (v : Validator) : Prop := paid_out i \/ convicted E s b i \/ missed_sync v \/ asks_compounding E f b v.
End Block.

(** ** At the end of an epoch, from altair on *)
(** validator [i] owed votes for the previous epoch and does not have the flags of a timely source and a timely target *)
Definition missed_votes (E : Env) (s : BeaconState) (i : N) : Prop :=
  eligible_at E s i = true /\ (voted_flag E s 0 i = false \/ voted_flag E s 1 i = false).
(** the balance of [i] is being moved: [i] consolidates into another validator, or another one consolidates into [i] and makes it compounding, which moves its
    excess balance to the queue of deposits *)
Definition consolidates (f : Fork) (s : BeaconState) (i : N) (v : Validator) : Prop :=
  f = Electra /\ exists c, In c (pending_consolidations s)
    /\ (pc_source_index c = i \/ (pc_target_index c = i /\ nthN (v_withdrawal_credentials v) 0 = Some 1)).
Definition epoch_debit_due (E : Env) (f : Fork) (s : BeaconState) (i : N) (v : Validator) : Prop :=
  missed_votes E s i \/ v_slashed v = true \/ consolidates f s i v.

(** ** At the upgrade to electra *)
(** validators that have not been activated and validators that are compounding have their balance, or the excess, moved to the queue of deposits *)
Definition requeued (f g : Fork) (v : Validator) : Prop :=
  f = Deneb /\ g = Electra /\ (v_activation_epoch v = FAR_FUTURE_EPOCH \/ nthN (v_withdrawal_credentials v) 0 = Some 2).

(** ** On a chain of calls: the walk has a step at which validator [i] had a cause to lose *)
Definition loses (E : Env) (l : list (Fork * BeaconState)) (i : N) : Prop :=
  exists f s v, nthN (validators s) i = Some v
    /\ ((exists b, passes_block E l f s b /\ debit_due E f s b i v)
        \/ (passes_epoch E l f s /\ epoch_debit_due E f s i v)
        \/ exists g t, passes l (f, s) (g, t) /\ requeued f g v).
