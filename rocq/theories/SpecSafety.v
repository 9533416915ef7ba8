(** * Specification vocabulary: when finality can be contradicted

    A walk is the list of states a node goes through, one slot, one block or one upgrade at a time; votes are signed attestations that
    verify in a state of the walk; stake is described by a table. *)
From Verif Require Import Base Types Ctx Env Block Transition Upgrade SpecCommon SpecHelpers SpecElectra SpecOps SpecAtt SpecFinality.

Section Walk.
Context (E : Env).

(** one slot, one block (with any outcome), one upgrade *)
Inductive step : Fork * BeaconState -> Fork * BeaconState -> Prop :=
| step_slot f s t : slot s + 1 < 2 ^ 64 -> process_slots E f (slot s + 1) s = (Ok tt, t) -> step (f, s) (f, t)
| step_block f b s r t : process_block E f b s = (r, t) -> step (f, s) (f, t)
| step_upgrade f g s t : chain_call E (f, s) (g, t) -> f <> g -> step (f, s) (g, t).
(** the states from [p0] to the head of the list, newest first *)
Inductive walk (p0 : Fork * BeaconState) : list (Fork * BeaconState) -> Prop :=
| walk_start : walk p0 [p0]
| walk_step p q l : walk p0 (p :: l) -> step p q -> walk p0 (q :: p :: l).

(** validator [i] is one of the signers of the aggregate [ia], which verifies in a state of the walk *)
Definition signed_on (l : list (Fork * BeaconState)) (i : N) (ia : IndexedAttestation) : Prop :=
  In i (ia_attesting_indices ia) /\ exists g t, In (g, t) l /\ indexed_valid E t ia.

(** [r] is the block root the walk records for the first slot of epoch [e] *)
Definition starts_epoch (l : list (Fork * BeaconState)) (e : N) (r : Root) : Prop :=
  exists g t, In (g, t) l /\ e * SLOTS_PER_EPOCH E < slot t /\ slot t <= e * SLOTS_PER_EPOCH E + SLOTS_PER_HISTORICAL_ROOT E
    /\ recorded_root E t (e * SLOTS_PER_EPOCH E) = Some r.
(** in epoch [k] and the next two the walks have no checkpoint in common *)
Definition forked_at (k : N) (a b : list (Fork * BeaconState)) : Prop :=
  forall e r, k <= e -> e <= k + 2 -> starts_epoch a e r -> starts_epoch b e r -> False.

(** [i] signed two conflicting votes, one on each walk: the evidence an attester slashing consists of *)
Definition guilty (a b : list (Fork * BeaconState)) (i : N) : Prop :=
  exists va vb, signed_on a i va /\ signed_on b i vb
    /\ (double_vote (ia_data va) (ia_data vb) \/ surrounds (ia_data va) (ia_data vb) \/ surrounds (ia_data vb) (ia_data va)).

(** ** Stake *)
(** the stake validator [i] has in state [t] at epoch [e]: its effective balance while it is active *)
Definition stake_at (t : BeaconState) (e i : N) : N :=
  match nthN (validators t) i with Some v => if active_at e v then v_effective_balance v else 0 | None => 0 end.
(** the table [w] gives the stake of each validator *)
Definition listed (w : list N) (i : N) : N := match nthN w i with Some x => x | None => 0 end.
(** in state [t], the stake of every set of validators is that of the table up to [drift] *)
Definition near_table (w : list N) (drift : N) (t : BeaconState) : Prop :=
  forall e X, (e = epoch_of E t \/ e = prev_epoch_of E t) -> NoDup X ->
    sumN (map (stake_at t e) X) <= sumN (map (listed w) X) + drift
    /\ sumN (map (listed w) X) <= sumN (map (stake_at t e) X) + drift.
(** ... at the end of every epoch of the walk; the registry is of realistic size *)
Definition steady_stake (w : list N) (drift : N) (l : list (Fork * BeaconState)) : Prop :=
  forall g t, In (g, t) l -> (slot t + 1) mod SLOTS_PER_EPOCH E = 0 -> stake_fits t /\ near_table w drift t.
End Walk.
