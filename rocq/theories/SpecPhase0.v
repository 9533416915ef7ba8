(** * Specification vocabulary: rewards and penalties of phase0

    Only fields, lists, filters and arithmetic; no model function is used here. *)
From Verif Require Import Base Types Ctx Env SpecCommon SpecHelpers SpecElectra SpecOps SpecAtt SpecFinality SpecSlots SpecEpoch.

(** validator [i] is one of the committee members whose bit is set in [a] *)
Definition attests (E : Env) (s : BeaconState) (a : PendingAttestation) (i : N) : Prop :=
  exists com k, is_committee E s (ad_slot (pa_data a)) (ad_index (pa_data a)) com /\ nthN (pa_aggregation_bits a) k = Some true /\ nthN com k = Some i.
(** what a vote of the previous epoch got right: the source always, the target block, the head block *)
Definition right_source (a : PendingAttestation) : Prop := True.
Definition right_target (E : Env) (s : BeaconState) (a : PendingAttestation) : Prop :=
  recorded_root E s (prev_epoch_of E s * SLOTS_PER_EPOCH E) = Some (cp_root (ad_target (pa_data a))).
Definition right_head (E : Env) (s : BeaconState) (a : PendingAttestation) : Prop :=
  right_target E s a /\ recorded_root E s (ad_slot (pa_data a)) = Some (ad_beacon_block_root (pa_data a)).
(** the unslashed validators with an included vote of the previous epoch for which [right] holds, each once *)
Definition voters (E : Env) (s : BeaconState) (right : PendingAttestation -> Prop) (l : list N) : Prop :=
  NoDup l /\ forall i, In i l <-> exists v, nthN (validators s) i = Some v /\ v_slashed v = false
    /\ exists a, In a (previous_epoch_attestations s) /\ right a /\ attests E s a i.
(** the vote of [i] with the smallest inclusion delay, the first of these in the list *)
Definition first_vote (E : Env) (s : BeaconState) (i : N) (a : PendingAttestation) : Prop :=
  attests E s a i /\ exists before after, previous_epoch_attestations s = before ++ a :: after
    /\ (forall b, In b before -> attests E s b i -> pa_inclusion_delay a < pa_inclusion_delay b)
    /\ (forall b, In b after -> attests E s b i -> pa_inclusion_delay a <= pa_inclusion_delay b).

Definition base0 (E : Env) (s : BeaconState) (i : N) : N :=
  effective_balance_of s i * BASE_REWARD_FACTOR E / N.sqrt (active_balance E s) / 4.
Definition proposer_cut (E : Env) (s : BeaconState) (i : N) : N := base0 E s i / PROPOSER_REWARD_QUOTIENT E.
Definition stake_of (E : Env) (s : BeaconState) (l : list N) : N := N.max (effective_sum s l) (EFFECTIVE_BALANCE_INCREMENT E).
(** for each of source, target and head: the voters [l] gain in proportion to their stake (all of it in a leak), the others lose *)
Definition vote_gain (E : Env) (s : BeaconState) (l : list N) (i : N) : N :=
  if eligible_at E s i && memN i l
  then if leaking E s then base0 E s i
       else base0 E s i * (stake_of E s l / EFFECTIVE_BALANCE_INCREMENT E) / (active_balance E s / EFFECTIVE_BALANCE_INCREMENT E)
  else 0.
Definition vote_loss (E : Env) (s : BeaconState) (l : list N) (i : N) : N :=
  if eligible_at E s i && negb (memN i l) then base0 E s i else 0.
(** for the delay of the first vote: the voter gains its base reward less the proposer's cut, divided by the delay, and the proposer
    that included the vote gains the cut *)
Definition inclusion_gain (E : Env) (s : BeaconState) (l : list N) (first : N -> PendingAttestation) (i : N) : N :=
  (if memN i l then (base0 E s i - proposer_cut E s i) / pa_inclusion_delay (first i) else 0)
  + sumN (map (proposer_cut E s) (filter (fun j => pa_proposer_index (first j) =? i) l)).
(** in a leak everyone loses what a perfect voter gained, and those who missed the target lose in proportion to its length *)
Definition leak_loss (E : Env) (s : BeaconState) (l : list N) (i : N) : N :=
  if leaking E s && eligible_at E s i
  then 4 * base0 E s i - proposer_cut E s i
       + (if memN i l then 0
          else effective_balance_of s i * (prev_epoch_of E s - cp_epoch (finalized_checkpoint s)) / INACTIVITY_PENALTY_QUOTIENT E)
  else 0.
(** the balance after one round; subtraction stops at 0 *)
Definition balance_after_phase0 (E : Env) (s : BeaconState) (ls lt lh : list N) (first : N -> PendingAttestation) (i b : N) : N :=
  b + (vote_gain E s ls i + vote_gain E s lt i + vote_gain E s lh i + inclusion_gain E s ls first i)
    - (vote_loss E s ls i + vote_loss E s lt i + vote_loss E s lh i + leak_loss E s lt i).

(** the votes of the previous epoch as block processing records them *)
Definition previous_votes_sound (E : Env) (s : BeaconState) : Prop :=
  forall a, In a (previous_epoch_attestations s) ->
    pending_recorded E s a /\ ad_slot (pa_data a) / SLOTS_PER_EPOCH E = prev_epoch_of E s
    /\ pa_proposer_index a < lenN (validators s) /\ 1 <= pa_inclusion_delay a.
(** no product or sum of the computation exceeds 64 bits *)
Definition rewards_fit_phase0 (E : Env) (s : BeaconState) : Prop :=
  let n := lenN (validators s) in
  let all := sumN (map (base0 E s) (rangeN n)) in
  let share := N.max (sumN (map v_effective_balance (validators s))) (EFFECTIVE_BALANCE_INCREMENT E) / EFFECTIVE_BALANCE_INCREMENT E in
  1 <= PROPOSER_REWARD_QUOTIENT E /\ 1 <= INACTIVITY_PENALTY_QUOTIENT E
  /\ (forall i, i < n -> effective_balance_of s i * BASE_REWARD_FACTOR E < 2 ^ 64)
  /\ (forall i, i < n -> effective_balance_of s i * (prev_epoch_of E s - cp_epoch (finalized_checkpoint s)) < 2 ^ 64)
  /\ (forall i, i < n -> 7 * base0 E s i + effective_balance_of s i * (prev_epoch_of E s - cp_epoch (finalized_checkpoint s)) / INACTIVITY_PENALTY_QUOTIENT E < 2 ^ 64)
  /\ (forall i b, nthN (balances s) i = Some b -> b + 3 * (base0 E s i * (1 + share)) + all < 2 ^ 64).
