(** * Specification vocabulary: the steps of epoch processing

    Only fields, lists, filters and arithmetic; no model function is used here. *)
From Verif Require Import Base Types Ctx Env SpecCommon SpecHelpers SpecElectra SpecOps SpecAtt SpecFinality SpecSlots.
From Coq Require Import Sorted.

(** what a sane configuration satisfies in addition for epoch processing *)
Definition ctx_sane_epoch (c : Ctx) : Prop :=
  1 <= HYSTERESIS_QUOTIENT c /\ HYSTERESIS_DOWNWARD_MULTIPLIER c <= 2 ^ 16 /\ HYSTERESIS_UPWARD_MULTIPLIER c <= 2 ^ 16
  /\ 1 <= EPOCHS_PER_ETH1_VOTING_PERIOD c /\ 1 <= EPOCHS_PER_SYNC_COMMITTEE_PERIOD c
  /\ SLOTS_PER_EPOCH c <= SLOTS_PER_HISTORICAL_ROOT c.

(** ** Effective balances *)
Definition kind_is (k : N) (v : Validator) : bool := match nthN (v_withdrawal_credentials v) 0 with Some b => b =? k | None => false end.
(** the largest effective balance of a validator *)
Definition balance_cap (E : Env) (f : Fork) (v : Validator) : N :=
  match f with
  | Electra => if kind_is 2 v then MAX_EFFECTIVE_BALANCE_ELECTRA E else MIN_ACTIVATION_BALANCE E
  | _ => MAX_EFFECTIVE_BALANCE E
  end.
(** a balance has left the band around the effective balance *)
Definition left_band (E : Env) (eff b : N) : bool :=
  let h := EFFECTIVE_BALANCE_INCREMENT E / HYSTERESIS_QUOTIENT E in
  (b + h * HYSTERESIS_DOWNWARD_MULTIPLIER E <? eff) || (eff + h * HYSTERESIS_UPWARD_MULTIPLIER E <? b).
Definition rounded_down (E : Env) (b : N) : N := b / EFFECTIVE_BALANCE_INCREMENT E * EFFECTIVE_BALANCE_INCREMENT E.
Definition next_effective (E : Env) (f : Fork) (v : Validator) (b : N) : N :=
  if left_band E (v_effective_balance v) b then N.min (rounded_down E b) (balance_cap E f v) else v_effective_balance v.

(** ** Correlation penalties *)
Definition correlation_multiplier (E : Env) (f : Fork) : N :=
  match f with
  | Phase0 => PROPORTIONAL_SLASHING_MULTIPLIER E
  | Altair => PROPORTIONAL_SLASHING_MULTIPLIER_ALTAIR E
  | _ => PROPORTIONAL_SLASHING_MULTIPLIER_BELLATRIX E
  end.
Definition slashed_share (E : Env) (f : Fork) (s : BeaconState) : N :=
  N.min (sumN (slashings s) * correlation_multiplier E f) (active_balance E s).
Definition correlation_penalty (E : Env) (f : Fork) (s : BeaconState) (v : Validator) : N :=
  v_effective_balance v / EFFECTIVE_BALANCE_INCREMENT E * slashed_share E f s / active_balance E s * EFFECTIVE_BALANCE_INCREMENT E.
(** a slashed validator halfway to its withdrawable epoch *)
Definition halfway (E : Env) (s : BeaconState) (v : Validator) : bool :=
  v_slashed v && (v_withdrawable_epoch v =? epoch_of E s + EPOCHS_PER_SLASHINGS_VECTOR E / 2).
(** the products of the penalty computation fit in 64 bits *)
Definition penalties_fit (E : Env) (f : Fork) (s : BeaconState) : Prop :=
  sumN (slashings s) < 2 ^ 64 /\ sumN (slashings s) * correlation_multiplier E f < 2 ^ 64
  /\ forall v, In v (validators s) -> v_effective_balance v / EFFECTIVE_BALANCE_INCREMENT E * slashed_share E f s < 2 ^ 64.

(** ** Eligibility, leaks, votes *)
Definition eligible_v (E : Env) (s : BeaconState) (v : Validator) : bool :=
  active_at (prev_epoch_of E s) v || (v_slashed v && (prev_epoch_of E s + 1 <? v_withdrawable_epoch v)).
Definition eligible_at (E : Env) (s : BeaconState) (i : N) : bool :=
  match nthN (validators s) i with Some v => eligible_v E s v | None => false end.
(** finality is late *)
Definition leaking (E : Env) (s : BeaconState) : bool :=
  MIN_EPOCHS_TO_INACTIVITY_PENALTY E <? prev_epoch_of E s - cp_epoch (finalized_checkpoint s).
(** validator [i] was active and unslashed in the previous epoch and has participation flag [k] for it *)
Definition voted_flag (E : Env) (s : BeaconState) (k i : N) : bool :=
  match nthN (validators s) i, nthN (previous_epoch_participation s) i with
  | Some v, Some p => active_at (prev_epoch_of E s) v && negb (v_slashed v) && N.testbit p k
  | _, _ => false
  end.
(** inactivity score after the update *)
Definition next_score (E : Env) (s : BeaconState) (i sc : N) : N :=
  let sc1 := if voted_flag E s 1 i then sc - 1 else sc + INACTIVITY_SCORE_BIAS E in
  if leaking E s then sc1 else sc1 - INACTIVITY_SCORE_RECOVERY_RATE E.

(** ** Rewards and penalties from altair on *)
Definition flag_stake (E : Env) (s : BeaconState) (k : N) : N :=
  N.max (effective_sum s (filter (voted_flag E s k) (rangeN (lenN (validators s))))) (EFFECTIVE_BALANCE_INCREMENT E).
Definition flag_gain (E : Env) (s : BeaconState) (k i : N) : N :=
  if eligible_at E s i && voted_flag E s k i && negb (leaking E s)
  then base_reward E s i * flag_weight k * (flag_stake E s k / EFFECTIVE_BALANCE_INCREMENT E)
       / (active_balance E s / EFFECTIVE_BALANCE_INCREMENT E * 64)
  else 0.
(** a missed head vote (flag 2) costs nothing *)
Definition flag_loss (E : Env) (s : BeaconState) (k i : N) : N :=
  if eligible_at E s i && negb (voted_flag E s k i) && negb (k =? 2) then base_reward E s i * flag_weight k / 64 else 0.
Definition leak_quotient (E : Env) (f : Fork) : N :=
  match f with Phase0 => INACTIVITY_PENALTY_QUOTIENT E | Altair => INACTIVITY_PENALTY_QUOTIENT_ALTAIR E | _ => INACTIVITY_PENALTY_QUOTIENT_BELLATRIX E end.
Definition inactivity_loss (E : Env) (f : Fork) (s : BeaconState) (i : N) : N :=
  if eligible_at E s i && negb (voted_flag E s 1 i)
  then effective_balance_of s i * (match nthN (inactivity_scores s) i with Some sc => sc | None => 0 end)
       / (INACTIVITY_SCORE_BIAS E * leak_quotient E f)
  else 0.
(** the balance after the four rounds; subtraction stops at 0 *)
Definition balance_after_rewards (E : Env) (f : Fork) (s : BeaconState) (i b : N) : N :=
  b + flag_gain E s 0 i - flag_loss E s 0 i
  + flag_gain E s 1 i - flag_loss E s 1 i
  + flag_gain E s 2 i - flag_loss E s 2 i
  - inactivity_loss E f s i.
(** no product or sum of the computation exceeds 64 bits *)
Definition rewards_fit (E : Env) (f : Fork) (s : BeaconState) : Prop :=
  active_balance E s / EFFECTIVE_BALANCE_INCREMENT E * 64 < 2 ^ 64
  /\ 1 <= INACTIVITY_SCORE_BIAS E * leak_quotient E f < 2 ^ 64
  /\ (forall i k, i < lenN (validators s) -> k < 3 ->
        base_reward E s i * flag_weight k * (flag_stake E s k / EFFECTIVE_BALANCE_INCREMENT E) < 2 ^ 64)
  /\ (forall i, i < lenN (validators s) -> effective_balance_of s i * (match nthN (inactivity_scores s) i with Some sc => sc | None => 0 end) < 2 ^ 64)
  /\ (forall i b, nthN (balances s) i = Some b -> b + flag_gain E s 0 i + flag_gain E s 1 i + flag_gain E s 2 i < 2 ^ 64).

(** phase0 also pays the proposers that included the previous epoch's attestations *)
Definition includes_votes (s : BeaconState) (i : N) : Prop := exists a, In a (previous_epoch_attestations s) /\ pa_proposer_index a = i.
Definition previous_votes_in_epoch (E : Env) (s : BeaconState) : Prop :=
  forall a, In a (previous_epoch_attestations s) -> ad_slot (pa_data a) / SLOTS_PER_EPOCH E = prev_epoch_of E s.

(** ** Registry *)
Definition enters_queue (E : Env) (f : Fork) (v : Validator) : bool :=
  (v_activation_eligibility_epoch v =? FAR_FUTURE_EPOCH)
  && match f with Electra => MIN_ACTIVATION_BALANCE E <=? v_effective_balance v | _ => v_effective_balance v =? MAX_EFFECTIVE_BALANCE E end.
Definition ejected (E : Env) (s : BeaconState) (v : Validator) : bool :=
  active_at (epoch_of E s) v && (v_effective_balance v <=? EJECTION_BALANCE E) && (v_exit_epoch v =? FAR_FUTURE_EPOCH).
Definition activation_ready (s : BeaconState) (v : Validator) : bool :=
  (v_activation_eligibility_epoch v <=? cp_epoch (finalized_checkpoint s)) && (v_activation_epoch v =? FAR_FUTURE_EPOCH).
Definition eligibility_of (s : BeaconState) (i : N) : N :=
  match nthN (validators s) i with Some v => v_activation_eligibility_epoch v | None => 0 end.
(** [i] comes before [j] in the queue *)
Definition queued_before (s : BeaconState) (i j : N) : Prop :=
  eligibility_of s i < eligibility_of s j \/ (eligibility_of s i = eligibility_of s j /\ i < j).
(** [q] is the activation queue: the ready validators, in order *)
Definition is_activation_queue (s : BeaconState) (q : list N) : Prop :=
  StronglySorted (queued_before s) q
  /\ forall i, In i q <-> exists v, nthN (validators s) i = Some v /\ activation_ready s v = true.
(** number of activations allowed; electra limits deposits instead *)
Definition activation_cap (E : Env) (f : Fork) (s : BeaconState) : option N :=
  match f with
  | Electra => None
  | Deneb => Some (N.min (MAX_PER_EPOCH_ACTIVATION_CHURN_LIMIT E) (churn_limit E s))
  | _ => Some (churn_limit E s)
  end.
Definition capped (o : option N) (q : list N) : list N := match o with Some n => firstN n q | None => q end.

(** ** Periodic updates *)
Definition epoch_ends_period (E : Env) (s : BeaconState) (period : N) : bool := (epoch_of E s + 1) mod period =? 0.

(** ** Sync committees *)
Definition is_sync_seed (E : Env) (s : BeaconState) (e : N) (seed : bytes) : Prop :=
  exists mix, nthN (randao_mixes s) ((e + EPOCHS_PER_HISTORICAL_VECTOR E - MIN_SEED_LOOKAHEAD E - 1) mod EPOCHS_PER_HISTORICAL_VECTOR E) = Some mix
    /\ seed = hash E ([7; 0; 0; 0] ++ to_le 8 e ++ mix).
(** the candidate of round [r] when the sampling accepts it *)
Definition accepted_in (E : Env) (s : BeaconState) (A : list N) (seed : bytes) (r : N) : list N :=
  match proposer_candidate E A seed r with
  | Some i => if MAX_EFFECTIVE_BALANCE E * proposer_byte E seed r <=? effective_balance_of s i * 255 then [i] else []
  | None => []
  end.
(** [l] lists the first SYNC_COMMITTEE_SIZE accepted candidates among the validators active in the next epoch *)
Definition sync_members (E : Env) (s : BeaconState) (l : list N) : Prop :=
  let e := epoch_of E s + 1 in
  exists seed rounds, is_sync_seed E s e seed
    /\ l = flat_map (accepted_in E s (active_set s e) seed) (rangeN rounds)
    /\ lenN l = SYNC_COMMITTEE_SIZE E.
Definition key_of (s : BeaconState) (i : N) : option bytes := option_map v_public_key (nthN (validators s) i).
(** [c] is the committee of the validators [l]: their keys in order and the aggregate of the keys *)
Definition committee_of_members (E : Env) (s : BeaconState) (l : list N) (c : SyncCommittee) : Prop :=
  map (key_of s) l = map Some (sc_public_keys c) /\ aggregate_pks E (sc_public_keys c) = Some (sc_aggregate_public_key c).

(** ** Effect of the registry step on one record *)
Definition same_identity (v v' : Validator) : Prop :=
  v_public_key v' = v_public_key v /\ v_withdrawal_credentials v' = v_withdrawal_credentials v
  /\ v_effective_balance v' = v_effective_balance v /\ v_slashed v' = v_slashed v.
Definition registry_record (E : Env) (f : Fork) (s : BeaconState) (q : list N) (i : N) (v v' : Validator) : Prop :=
  same_identity v v'
  /\ v_activation_eligibility_epoch v' = (if enters_queue E f v then epoch_of E s + 1 else v_activation_eligibility_epoch v)
  /\ (In i (capped (activation_cap E f s) q) -> v_activation_epoch v' = earliest_exit E s)
  /\ (~ In i (capped (activation_cap E f s) q) -> v_activation_epoch v' = v_activation_epoch v)
  /\ (if ejected E s v
      then earliest_exit E s <= v_exit_epoch v' < 2 ^ 63 /\ v_withdrawable_epoch v' = v_exit_epoch v' + MIN_VALIDATOR_WITHDRAWABILITY_DELAY E
      else v_exit_epoch v' = v_exit_epoch v /\ v_withdrawable_epoch v' = v_withdrawable_epoch v).
(** scheduled exits leave room for more *)
Definition registry_room (E : Env) (f : Fork) (s : BeaconState) : Prop :=
  match f with Electra => exit_room E Electra s | _ => exits_below s (2 ^ 61) end.
