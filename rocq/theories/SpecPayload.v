(** * Specification vocabulary: the execution chain and the randomness along a chain of calls *)
From Verif Require Import Base Types Ctx Env Helpers Block Transition Upgrade SpecCommon SpecHelpers SpecElectra SpecOps SpecBlock SpecFlow SpecAtt SpecQueues SpecFinality SpecSafety SpecAuthority.

(** the hash of the last execution block a state knows *)
Definition exec_head (s : BeaconState) : bytes := eph_block_hash (latest_execution_payload_header s).

(** the payload of block [b] extends the execution chain of state [s]: the block is the first for its slot, the payload builds on the head (or is the
    terminal one, in bellatrix before the merge), carries the randomness and the time of the slot, and the execution engine accepts it *)
Definition extends (E : Env) (f : Fork) (s : BeaconState) (b : BeaconBlock) : Prop :=
  let p := bb_execution_payload (bk_body b) in
  bh_slot (latest_block_header s) < slot s
  /\ (ep_parent_hash p = exec_head s \/ (f = Bellatrix /\ header_unset E (latest_execution_payload_header s)))
  /\ nthN (randao_mixes s) (mix_position E s) = Some (ep_prev_randao p)
  /\ ep_timestamp p = genesis_time s + slot s * SECONDS_PER_SLOT E
  /\ exists hashes parent,
       (from_deneb f -> Forall2 (is_versioned_hash E) (bb_blob_kzg_commitments (bk_body b)) hashes /\ parent = bk_parent_root b)
       /\ (~ from_deneb f -> hashes = [] /\ parent = [])
       /\ engine_ok E (mkPayloadRequest f p hashes parent) = true.

(** payloads, newest first, that form a chain from hash [h] to the hash of the newest: each builds on the one before it and is later than all of them;
    if [premerge], the first of them may build on anything *)
Inductive linked (premerge : Prop) (h : bytes) : list ExecutionPayload -> bytes -> Prop :=
| linked_none : linked premerge h [] h
| linked_more p l g : linked premerge h l g -> (ep_parent_hash p = g \/ (premerge /\ l = [])) ->
    (forall q, In q l -> ep_timestamp q < ep_timestamp p) -> linked premerge h (p :: l) (ep_block_hash p).

(** the walk has a block that carries payload [p] and extends the execution chain with it *)
Definition carried (E : Env) (w : list (Fork * BeaconState)) (p : ExecutionPayload) : Prop :=
  exists f s b, passes_block E w f s b /\ extends E f s b /\ p = bb_execution_payload (bk_body b).

(** ** Randomness *)
(** block [b] contributes to the randomness of state [s]: its reveal is the signature of the proposer of the slot over the epoch *)
Definition reveals (E : Env) (s : BeaconState) (b : BeaconBlock) : Prop :=
  bh_slot (latest_block_header s) < slot s
  /\ exists v, get_beacon_proposer_index E s = Ok (bk_proposer_index b) /\ nthN (validators s) (bk_proposer_index b) = Some v
       /\ signed_by E s [2; 0; 0; 0] (epoch_of E s) (OU64 (epoch_of E s)) (v_public_key v) (bb_randao_reveal (bk_body b)).
(** the randomness of the current epoch *)
Definition current_mix (E : Env) (s : BeaconState) : option bytes := nthN (randao_mixes s) (mix_position E s).
(** the blocks, newest first, of a walk that contribute, with the states they are applied to; each is for a later slot than those before it *)
Inductive revealed (E : Env) (w : list (Fork * BeaconState)) : list (BeaconState * BeaconBlock) -> Prop :=
| revealed_none : revealed E w []
| revealed_more f s b l : revealed E w l -> passes_block E w f s b -> reveals E s b ->
    (forall s' b', In (s', b') l -> slot s' < slot s) -> revealed E w ((s, b) :: l).
(** mixing in the hashes of the reveals, oldest first *)
Definition mixed (E : Env) (l : list (BeaconState * BeaconBlock)) (mix : bytes) : bytes :=
  fold_right (fun x m => xorB m (hash E (bb_randao_reveal (bk_body (snd x))))) mix l.
