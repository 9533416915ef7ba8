(** * Specification vocabulary: how much the blocks of an epoch can mint

    Only record fields, sums and the reward unit of SpecAtt are used. *)
From Verif Require Import Base Types Ctx Env Block Transition SpecCommon SpecHelpers SpecAtt SpecFlow SpecQueues SpecEpoch SpecIncentive.

(** everything the validators own: balances, and what waits in the deposit queue (electra) *)
Definition wealth (s : BeaconState) : N := sumN (balances s) + queue_total (pending_balance_deposits s).

(** what the deposits of a block bring in *)
Definition brought_in (b : BeaconBlock) : N :=
  sumN (map (fun d => dd_amount (dep_data d)) (bb_deposits (bk_body b)))
  + sumN (map dr_amount (ep_deposit_receipts (bb_execution_payload (bk_body b)))).

(** participation flags of validator [i] in a column; a validator without an entry has none *)
Definition flags_of (part : list N) (i : N) : N := match nthN part i with Some p => p | None => 0 end.
(** the weight, out of 54, of the three flags a column lacks for [i] *)
Definition missing_weight (part : list N) (i : N) : N := new_weight [0; 1; 2] (flags_of part i).
(** votes that can still be credited: reward units of the active validators of the previous and the current epoch, times the weight of the
    flags they lack *)
Definition open_votes (E : Env) (s : BeaconState) : N :=
  sumN (map (fun i => base_reward E s i * missing_weight (previous_epoch_participation s) i) (active_set s (prev_epoch_of E s)))
  + sumN (map (fun i => base_reward E s i * missing_weight (current_epoch_participation s) i) (active_set s (epoch_of E s))).

Definition slashed_in (s : BeaconState) (i : N) : bool := match nthN (validators s) i with Some v => v_slashed v | None => false end.
(** rewards for reporting the validators slashed between [s] and [t] *)
Definition report_quotient (E : Env) (f : Fork) : N :=
  match f with Electra => WHISTLEBLOWER_REWARD_QUOTIENT_ELECTRA E | _ => WHISTLEBLOWER_REWARD_QUOTIENT E end.
Definition report_rewards (E : Env) (f : Fork) (s t : BeaconState) : N :=
  sumN (map (fun i => effective_balance_of t i / report_quotient E f)
    (filter (fun i => slashed_in t i && negb (slashed_in s i)) (rangeN (lenN (validators t))))).

(** the most a sync aggregate pays: every seat and, for each, the proposer *)
Definition sync_pool (E : Env) (s : BeaconState) : N :=
  lenN (sc_public_keys (current_sync_committee s)) * (sync_member_reward E s + sync_proposer_reward E s).

(** [t] comes from [s] by the blocks [bs] and slots without a block, all in the epoch of [s] *)
Inductive same_epoch (E : Env) (f : Fork) (s : BeaconState) : list BeaconBlock -> BeaconState -> Prop :=
| se_start : same_epoch E f s [] s
| se_slot bs t u : same_epoch E f s bs t -> slot t + 1 < 2 ^ 64 -> process_slots E f (slot t + 1) t = (Ok tt, u) -> epoch_of E u = epoch_of E s ->
    same_epoch E f s bs u
| se_block bs b t u : same_epoch E f s bs t -> process_block E f b t = (Ok tt, u) -> same_epoch E f s (bs ++ [b]) u.

(** ** The end of an epoch *)
(** reward units times weight over 64, for the share of the active stake that voted in time: source, target and head *)
Definition vote_gain_bound (E : Env) (s : BeaconState) : N :=
  unit_reward E s * 14 * voter_units E s 0 * voter_units E s 0 / (active_units E s * 64)
  + unit_reward E s * 26 * voter_units E s 1 * voter_units E s 1 / (active_units E s * 64)
  + unit_reward E s * 14 * voter_units E s 2 * voter_units E s 2 / (active_units E s * 64).
