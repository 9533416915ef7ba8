(** * Specification vocabulary: attestations

    Committees are stated with the shuffle of SpecShuffle; everything else uses fields, lists and comparisons. *)
From Verif Require Import Base Types Ctx Env SpecCommon SpecShuffle SpecHelpers SpecElectra SpecOps SpecBlock.
From Coq Require Import Sorted.

(** configuration facts the attestation rules rely on, beyond [ctx_sane] *)
Definition ctx_sane_att (c : Ctx) : Prop :=
  1 <= MIN_ATTESTATION_INCLUSION_DELAY c <= 2 ^ 32 /\ 2 * SLOTS_PER_EPOCH c <= SLOTS_PER_HISTORICAL_ROOT c
  /\ EFFECTIVE_BALANCE_INCREMENT c * BASE_REWARD_FACTOR c < 2 ^ 64.

(** number of committees of each slot of epoch [e] *)
Definition committees_in_slot (E : Env) (s : BeaconState) (e : N) : N :=
  N.max 1 (N.min (MAX_COMMITTEES_PER_SLOT E) (lenN (active_set s e) / SLOTS_PER_EPOCH E / TARGET_COMMITTEE_SIZE E)).
(** the seed of the committees of epoch [e] *)
Definition is_attester_seed (E : Env) (s : BeaconState) (e : N) (seed : bytes) : Prop :=
  exists mix, nthN (randao_mixes s) ((e + EPOCHS_PER_HISTORICAL_VECTOR E - MIN_SEED_LOOKAHEAD E - 1) mod EPOCHS_PER_HISTORICAL_VECTOR E) = Some mix
    /\ seed = hash E ([1; 0; 0; 0] ++ to_le 8 e ++ mix).
(** [com] is committee number [c] of slot [sl]: a slice of the shuffled active set *)
Definition is_committee (E : Env) (s : BeaconState) (sl c : N) (com : list N) : Prop :=
  let e := sl / SLOTS_PER_EPOCH E in
  let n := lenN (active_set s e) in
  let count := committees_in_slot E s e * SLOTS_PER_EPOCH E in
  let i := sl mod SLOTS_PER_EPOCH E * committees_in_slot E s e + c in
  exists seed, is_attester_seed E s e seed
    /\ lenN com = n * (i + 1) / count - n * i / count
    /\ forall j, j < lenN com ->
         nthN com j = nthN (active_set s e) (spec_shuffle (hash E) seed n (SHUFFLE_ROUND_COUNT E) (n * i / count + j)).

(** [l] lists in increasing order the committee members whose bit is set *)
Definition attesters (com : list N) (bits : list bool) (l : list N) : Prop :=
  StronglySorted N.lt l /\ forall v, In v l <-> exists k, nthN bits k = Some true /\ nthN com k = Some v.

(** the justified checkpoint an attestation must use as its source *)
Definition justified_for (E : Env) (s : BeaconState) (d : AttestationData) : Checkpoint :=
  if cp_epoch (ad_target d) =? epoch_of E s then current_justified_checkpoint s else previous_justified_checkpoint s.

(** target epoch and inclusion window; before deneb an attestation expires one epoch after its slot *)
Definition attestation_timely (E : Env) (f : Fork) (s : BeaconState) (d : AttestationData) : Prop :=
  (cp_epoch (ad_target d) = epoch_of E s \/ cp_epoch (ad_target d) = prev_epoch_of E s)
  /\ cp_epoch (ad_target d) = ad_slot d / SLOTS_PER_EPOCH E
  /\ ad_slot d + MIN_ATTESTATION_INCLUSION_DELAY E <= slot s
  /\ (~ from_deneb f -> slot s <= ad_slot d + SLOTS_PER_EPOCH E).

(** everything an attestation of phase0 to deneb must satisfy; [l] are its attesters *)
Definition attestation_valid (E : Env) (f : Fork) (s : BeaconState) (a : Attestation) (l : list N) : Prop :=
  let d := at_data a in
  attestation_timely E f s d
  /\ ad_index d < committees_in_slot E s (cp_epoch (ad_target d))
  /\ ad_source d = justified_for E s d
  /\ (exists com, is_committee E s (ad_slot d) (ad_index d) com /\ lenN (at_aggregation_bits a) = lenN com
        /\ attesters com (at_aggregation_bits a) l)
  /\ lenN l <= MAX_VALIDATORS_PER_COMMITTEE E
  /\ indexed_valid E s (mkIndexed l d (at_signature a)).

(** ** Participation flags (altair on) *)
(** the block root recorded for slot [sl] *)
Definition recorded_root (E : Env) (s : BeaconState) (sl : N) : option Root := nthN (block_roots s) (sl mod SLOTS_PER_HISTORICAL_ROOT E).
Definition target_matches (E : Env) (s : BeaconState) (d : AttestationData) : Prop :=
  recorded_root E s (cp_epoch (ad_target d) * SLOTS_PER_EPOCH E) = Some (cp_root (ad_target d)).
Definition head_matches (E : Env) (s : BeaconState) (d : AttestationData) : Prop :=
  target_matches E s d /\ recorded_root E s (ad_slot d) = Some (ad_beacon_block_root d).
(** flags of an attestation included after [delay] slots: 0 timely source, 1 timely target, 2 timely head *)
Definition earns_after (E : Env) (f : Fork) (s : BeaconState) (d : AttestationData) (delay flag : N) : Prop :=
  (flag = 0 /\ delay * delay <= SLOTS_PER_EPOCH E)
  \/ (flag = 1 /\ target_matches E s d /\ (from_deneb f \/ delay <= SLOTS_PER_EPOCH E))
  \/ (flag = 2 /\ head_matches E s d /\ delay = MIN_ATTESTATION_INCLUSION_DELAY E).
(** ... included in a block of the current slot *)
Definition earns (E : Env) (f : Fork) (s : BeaconState) (d : AttestationData) (flag : N) : Prop := earns_after E f s d (slot s - ad_slot d) flag.

(** reward unit of a validator *)
Definition base_reward (E : Env) (s : BeaconState) (i : N) : N :=
  effective_balance_of s i / EFFECTIVE_BALANCE_INCREMENT E
  * (EFFECTIVE_BALANCE_INCREMENT E * BASE_REWARD_FACTOR E / N.sqrt (active_balance E s)).
(** weight of each flag, out of 64 *)
Definition flag_weight (flag : N) : N := if flag =? 1 then 26 else 14.
(** the flags of [flags] that [old] does not have yet *)
Definition new_flags (flags : list N) (old : N) : list N := filter (fun k => negb (N.testbit old k)) flags.
Definition new_weight (flags : list N) (old : N) : N := sumN (map flag_weight (new_flags flags old)).
(** [old] with all of [flags] set *)
Definition with_flags (flags : list N) (old : N) : N := fold_left (fun p k => N.setbit p k) flags old.
(** the participation column an attestation writes to, and the state with another one *)
Definition participation_for (E : Env) (s : BeaconState) (d : AttestationData) : list N :=
  if cp_epoch (ad_target d) =? epoch_of E s then current_epoch_participation s else previous_epoch_participation s.
Definition with_participation (E : Env) (d : AttestationData) (part : list N) (s : BeaconState) : BeaconState :=
  if cp_epoch (ad_target d) =? epoch_of E s then set_current_epoch_participation part s else set_previous_epoch_participation part s.
(** what the attesters newly earn, before the proposer's share is taken *)
Definition newly_earned (E : Env) (s : BeaconState) (part : list N) (flags l : list N) : N :=
  sumN (map (fun i => base_reward E s i * new_weight flags (match nthN part i with Some p => p | None => 0 end)) l).
