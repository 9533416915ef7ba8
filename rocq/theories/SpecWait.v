(** * Specification vocabulary: a validator waiting for its withdrawal *)
From Verif Require Import Base Types Ctx Env Block Transition Upgrade SpecCommon SpecFlow SpecFinality SpecPayouts.

Section Wait.
Variable E : Env.
(** Chains of slots, accepted blocks and upgrades: the states, newest first, and the number of blocks. Each block is applied to a state in which validator
    [i] has funds due, and does not pay them out. *)
Inductive waiting (i : N) (p0 : Fork * BeaconState) : list (Fork * BeaconState) -> N -> Prop :=
| waiting_start : waiting i p0 [p0] 0
| waiting_slot f s t w c : waiting i p0 ((f, s) :: w) c -> slot s + 1 < 2 ^ 64 -> process_slots E f (slot s + 1) s = (Ok tt, t) ->
    waiting i p0 ((f, t) :: (f, s) :: w) c
| waiting_block f b s t w c : waiting i p0 ((f, s) :: w) c -> due_at E f s i <> None -> process_block E f b s = (Ok tt, t) ->
    ~ In i (map w_validator_index (payouts f b)) -> waiting i p0 ((f, t) :: (f, s) :: w) (c + 1)
| waiting_upgrade f g s t w c : waiting i p0 ((f, s) :: w) c -> chain_call E (f, s) (g, t) -> f <> g -> waiting i p0 ((g, t) :: (f, s) :: w) c.
End Wait.
(** the fewest validators one block's sweep moves past: the sweep ends when the block is full or the examination limit is reached *)
Definition sweep_stride (c : Ctx) : N := N.min (MAX_WITHDRAWALS_PER_PAYLOAD c) (MAX_VALIDATORS_PER_WITHDRAWALS_SWEEP c).
