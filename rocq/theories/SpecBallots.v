(** * Specification vocabulary: eth1 votes along a chain of calls *)
From Verif Require Import Base Types Ctx Env Helpers Block Transition Upgrade SpecCommon SpecHelpers SpecBlock SpecFlow SpecFinality SpecSafety SpecAuthority.

(** the voting period a state is in *)
Definition period_of (E : Env) (s : BeaconState) : N := slot s / voting_period E.

(** the vote of a block *)
Definition ballot (x : BeaconState * BeaconBlock) : Eth1Data := bb_eth1_data (bk_body (snd x)).

(** blocks of the walk, newest first, with the states they are applied to: all within voting period [n], each the first for its slot and for a later slot than those before it *)
Inductive cast (E : Env) (w : list (Fork * BeaconState)) (n : N) : list (BeaconState * BeaconBlock) -> Prop :=
| cast_none : cast E w n []
| cast_more f s b l : cast E w n l -> passes_block E w f s b -> period_of E s = n -> bh_slot (latest_block_header s) < slot s ->
    (forall s' b', In (s', b') l -> slot s' < slot s) -> cast E w n ((s, b) :: l).

(** the votes counted in state [s] that were there when the chain started in state [s0]: none once a new period has begun *)
Definition old_votes (E : Env) (s0 s : BeaconState) : list Eth1Data := if period_of E s =? period_of E s0 then eth1_data_votes s0 else [].
