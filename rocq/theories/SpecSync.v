(** * Specification vocabulary: sync committee periods *)
From Verif Require Import Base Types Ctx Env SpecCommon SpecHelpers SpecOps SpecAtt SpecFlow.

(** the number of the sync committee period a state is in *)
Definition sync_period (E : Env) (s : BeaconState) : N := slot s / SLOTS_PER_EPOCH E / EPOCHS_PER_SYNC_COMMITTEE_PERIOD E.

(** [sa] is signed by the marked members of [c]: they all signed the root of the block before the current slot (nobody at all: the signature is the point at infinity) *)
Definition signed_by_committee (E : Env) (s : BeaconState) (c : SyncCommittee) (sa : SyncAggregate) : Prop :=
  let keys := map snd (filter fst (combine (sa_bits sa) (sc_public_keys c))) in
  exists sl block dom root, sl = N.max (slot s) 1 - 1 /\ recorded_root E s sl = Some block
    /\ is_domain E [7; 0; 0; 0] (version_at s (sl / SLOTS_PER_EPOCH E)) (genesis_validators_root s) dom
    /\ is_signing_root E (OBytes32 block) dom root
    /\ (fast_aggregate_verify_ok E keys root (sa_signature sa) = true \/ (keys = [] /\ sa_signature sa = 192 :: repeat 0 95)).
