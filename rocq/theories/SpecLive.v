(** * Specification vocabulary: what it takes to finalize *)
From Verif Require Import Base Types Ctx Env Transition SpecCommon SpecElectra SpecAtt SpecFinality.

(** [s] is in the last slot of its epoch, and slot processing takes it to [t], the first state of the next epoch *)
Definition epoch_ends (E : Env) (f : Fork) (s t : BeaconState) : Prop :=
  (slot s + 1) mod SLOTS_PER_EPOCH E = 0 /\ process_slots E f (slot s + 1) s = (Ok tt, t).
(** according to the votes [s] has recorded, two thirds of the active stake voted for the block that starts epoch [e] *)
Definition backed (E : Env) (f : Fork) (s : BeaconState) (e : N) : Prop :=
  exists w, target_weight E f s e w /\ 2 * active_balance E s <= 3 * w.
(** the chain goes on from [t] to [s] within the epoch: slots, blocks, upgrades *)
Definition same_epoch (E : Env) (f : Fork) (t : BeaconState) (g : Fork) (s : BeaconState) : Prop :=
  SpecFinality.chain E (f, t) (g, s) /\ epoch_of E s = epoch_of E t.
