(** * Specification: blocks, fork boundaries and validation, in terms of the steps the API names *)
From Verif Require Import Base Types Ctx Env Block Transition Upgrade SpecCommon SpecHelpers SpecClock.

(** the block carries a valid signature of its proposer, as seen from state [s] *)
Definition block_signed (E : Env) (f : Fork) (s : BeaconState) (sb : SignedBeaconBlock) : Prop :=
  exists v, nthN (validators s) (bk_proposer_index (sb_message sb)) = Some v
    /\ signed_by E s [0; 0; 0; 0] (epoch_of E s) (OBlock f (sb_message sb)) (v_public_key v) (sb_signature sb).
(** the block announces the root of state [s] *)
Definition announces (E : Env) (f : Fork) (sb : SignedBeaconBlock) (s : BeaconState) : Prop :=
  htr E (OState f s) = Some (bk_state_root (sb_message sb)).

(** [passes E g s f t]: state [s] of fork [g] becomes state [t] of fork [f] by going, for each fork in between, to the first slot of its
    activation epoch and upgrading there *)
Inductive passes (E : Env) : Fork -> BeaconState -> Fork -> BeaconState -> Prop :=
| passes_done g s : passes E g s g s
| passes_altair s s1 s2 f t :
    process_slots E Phase0 (activation E Altair * SLOTS_PER_EPOCH E) s = (Ok tt, s1) -> upgrade_to_altair E s1 = Ok s2 -> passes E Altair s2 f t -> passes E Phase0 s f t
| passes_bellatrix s s1 s2 f t :
    process_slots E Altair (activation E Bellatrix * SLOTS_PER_EPOCH E) s = (Ok tt, s1) -> upgrade_to_bellatrix E s1 = Ok s2 -> passes E Bellatrix s2 f t -> passes E Altair s f t
| passes_capella s s1 s2 f t :
    process_slots E Bellatrix (activation E Capella * SLOTS_PER_EPOCH E) s = (Ok tt, s1) -> upgrade_to_capella E s1 = Ok s2 -> passes E Capella s2 f t -> passes E Bellatrix s f t
| passes_deneb s s1 s2 f t :
    process_slots E Capella (activation E Deneb * SLOTS_PER_EPOCH E) s = (Ok tt, s1) -> upgrade_to_deneb E s1 = Ok s2 -> passes E Deneb s2 f t -> passes E Capella s f t.
(** the block is processed in fork [f]: directly when the state is already at its slot because of an upgrade, else after advancing *)
Definition block_applied (E : Env) (f : Fork) (validate just_upgraded : bool) (sb : SignedBeaconBlock) (s t : BeaconState) : Prop :=
  if just_upgraded && (bk_slot (sb_message sb) =? slot s) then state_transition_block_in_slot E f validate sb s = (Ok tt, t)
  else state_transition E f validate sb s = (Ok tt, t).
(** forks the executor knows *)
Definition supported (f : Fork) : Prop := f <> Electra.
