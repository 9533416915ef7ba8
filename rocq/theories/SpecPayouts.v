(** * Specification vocabulary: the withdrawals of a chain *)
From Verif Require Import Base Types Ctx Env Block Transition Upgrade SpecCommon SpecFlow SpecFinality.

Section Payouts.
Variable E : Env.
(** the withdrawals a block pays out: those of its payload, from capella on *)
Definition payouts (f : Fork) (b : BeaconBlock) : list Withdrawal := if fork_le Capella f then ep_withdrawals (bb_execution_payload (bk_body b)) else [].
(** chains of slots, accepted blocks and upgrades: the states, newest first, and the withdrawals of the blocks, oldest first *)
Inductive served (p0 : Fork * BeaconState) : list (Fork * BeaconState) -> list Withdrawal -> Prop :=
| served_start : served p0 [p0] []
| served_slot f s t w l : served p0 ((f, s) :: w) l -> slot s + 1 < 2 ^ 64 -> process_slots E f (slot s + 1) s = (Ok tt, t) ->
    served p0 ((f, t) :: (f, s) :: w) l
| served_block f b s t w l : served p0 ((f, s) :: w) l -> process_block E f b s = (Ok tt, t) -> served p0 ((f, t) :: (f, s) :: w) (l ++ payouts f b)
| served_upgrade f g s t w l : served p0 ((f, s) :: w) l -> chain_call E (f, s) (g, t) -> f <> g -> served p0 ((g, t) :: (f, s) :: w) l.
(** the number of the next withdrawal at the start of the chain: withdrawals begin with capella, at 0 *)
Definition first_number (p0 : Fork * BeaconState) : N := if fork_le Capella (fst p0) then next_withdrawal_index (snd p0) else 0.
(** what the withdrawal takes is what the validator has in [s] and may take out, and it goes to the address in the validator's credentials *)
Definition justified_payout (f : Fork) (s : BeaconState) (x : Withdrawal) : Prop :=
  exists v b, nthN (validators s) (w_validator_index x) = Some v /\ nthN (balances s) (w_validator_index x) = Some b
    /\ sweep_due E f s v b = Some (w_amount x) /\ w_address x = skipn 12 (v_withdrawal_credentials v).
End Payouts.
