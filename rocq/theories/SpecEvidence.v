(** * Specification vocabulary: evidence of misbehaviour and where it can be used *)
From Verif Require Import Base Types Ctx Env SpecCommon SpecHelpers SpecOps.

(** the signers of [ia] have the same public keys in [s] as in [t] *)
Definition same_signers (t s : BeaconState) (ia : IndexedAttestation) : Prop :=
  forall i v, In i (ia_attesting_indices ia) -> nthN (validators t) i = Some v ->
    exists w, nthN (validators s) i = Some w /\ v_public_key w = v_public_key v.
(** the registry of [t] is, key by key, an initial part of the registry of [s] *)
Definition keys_within (t s : BeaconState) : Prop :=
  forall i v, nthN (validators t) i = Some v -> exists w, nthN (validators s) i = Some w /\ v_public_key w = v_public_key v.
(** the two votes, put together as an attester slashing; the surrounding one comes first *)
Definition conflict (a b : AttestationData) : Prop := double_vote a b \/ surrounds a b \/ surrounds b a.
