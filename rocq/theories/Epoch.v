(** * Epoch: epoch processing of every fork

    P = phase0/epoch_processing.rs, A = altair/..., B = bellatrix/..., C = capella/..., D = deneb/...,
    L = electra/epoch_processing.rs. *)
From Verif Require Export Block.

(** phase0/constants.rs *)
Definition BASE_REWARDS_PER_EPOCH : N := 4.
Definition JUSTIFICATION_BITS_LENGTH : N := 4.

(** the last element of a Vec of attestations with the least delay: [Iterator::min_by] keeps the first minimum *)
Fixpoint min_delay (best : PendingAttestation) (l : list PendingAttestation) : PendingAttestation :=
  match l with
  | [] => best
  | a :: t => min_delay (if pa_inclusion_delay a <? pa_inclusion_delay best then a else best) t
  end.

Section WithEnv.
Variable E : Env.

(** ** phase0 attestation accounting *)

(** P 22-63 *)
Definition get_matching_source_attestations (s : BeaconState) (epoch : N) : res (list PendingAttestation) :=
  let! prev := get_previous_epoch E s in
  let! cur := get_current_epoch E s in
  if negb (prev =? epoch) && negb (cur =? epoch) then Err EInvalidEpoch
  else Ok (if epoch =? cur then current_epoch_attestations s else previous_epoch_attestations s).

(** P 65-102 *)
Definition get_matching_target_attestations (s : BeaconState) (epoch : N) : res (list PendingAttestation) :=
  let! l := get_matching_source_attestations s epoch in
  match l with
  | [] => Ok []
  | _ =>
    let! root := get_block_root E s epoch in
    Ok (filter (fun a => bytes_eqb (cp_root (ad_target (pa_data a))) root) l)
  end.

(** P 104-136 *)
Definition get_matching_head_attestations (s : BeaconState) (epoch : N) : res (list PendingAttestation) :=
  let! l := get_matching_target_attestations s epoch in
  rfilter (fun a => let! root := get_block_root_at_slot E s (ad_slot (pa_data a)) in
                    Ok (bytes_eqb (ad_beacon_block_root (pa_data a)) root)) l.

(** P 138-171.  Simplification: the [HashSet] is a duplicate-free list in order of first insertion *)
Definition unslashed_of (s : BeaconState) (a : PendingAttestation) : res (list N) :=
  let! l := get_attesting_indices E s (pa_data a) (pa_aggregation_bits a) in
  rfilter (fun i => let! v := idx (validators s) i in Ok (negb (v_slashed v))) l.
Definition get_unslashed_attesting_indices (s : BeaconState) (l : list PendingAttestation) : res (list N) :=
  let! ls := rmap (unslashed_of s) l in
  Ok (dedupN (concat ls)).

(** P 550-583 *)
Definition get_attesting_balance (s : BeaconState) (l : list PendingAttestation) : res N :=
  let! is := get_unslashed_attesting_indices s l in get_total_balance E s is.

(** ** Justification and finalization *)

(** P 618-631: adopt a justified epoch *)
Definition justify (epoch bit : N) : St BeaconState unit :=
  let* root := rd (fun s => get_block_root E s epoch) in
  md (fun s => set_current_justified_checkpoint (mkCheckpoint epoch root)
                 (set_justification_bits (updN (justification_bits s) bit true) s)).

(** P 637-651: [bits[lo..hi].all()] and the distance test *)
Definition finalize_if (lo n : nat) (cp : Checkpoint) (distance current_epoch : N) : St BeaconState unit :=
  let* c := rd (fun s =>
    if forallb (fun b => b) (firstn n (skipn lo (justification_bits s))) then
      let! e := add E (cp_epoch cp) distance in Ok (e =? current_epoch)
    else Ok false) in
  swhen c (md (set_finalized_checkpoint cp)).

(** P 585-654 *)
Definition weigh_justification_and_finalization (total prev_target cur_target : N) : St BeaconState unit :=
  let* prev := rd (get_previous_epoch E) in
  let* cur := rd (get_current_epoch E) in
  let* old_prev := rd (fun s => Ok (previous_justified_checkpoint s)) in
  let* old_cur := rd (fun s => Ok (current_justified_checkpoint s)) in
  md (fun s => set_previous_justified_checkpoint (current_justified_checkpoint s) s) ;;
  md (fun s => set_justification_bits (false :: firstn 3 (justification_bits s)) s) ;;
  let* p3 := lift (mul E prev_target 3) in
  let* t2 := lift (mul E total 2) in
  swhen (t2 <=? p3) (justify prev 1) ;;
  let* c3 := lift (mul E cur_target 3) in
  let* t2' := lift (mul E total 2) in
  swhen (t2' <=? c3) (justify cur 0) ;;
  finalize_if 1 3 old_prev 3 cur ;;
  finalize_if 1 2 old_prev 2 cur ;;
  finalize_if 0 3 old_cur 2 cur ;;
  finalize_if 0 2 old_cur 1 cur.

(** P 201-207 (phase0), A 80-94 (altair on): (total active, previous target, current target) balances *)
Definition target_balances (f : Fork) (s : BeaconState) : res (N * N * N) :=
  let! prev := get_previous_epoch E s in
  let! cur := get_current_epoch E s in
  match f with
  | Phase0 =>
    let! pa := get_matching_target_attestations s prev in
    let! ca := get_matching_target_attestations s cur in
    let! total := get_total_active_balance E s in
    let! pb := get_attesting_balance s pa in
    let! cb := get_attesting_balance s ca in
    Ok (total, pb, cb)
  | _ =>
    let! pi := get_unslashed_participating_indices E s TIMELY_TARGET_FLAG_INDEX prev in
    let! ci := get_unslashed_participating_indices E s TIMELY_TARGET_FLAG_INDEX cur in
    let! total := get_total_active_balance E s in
    let! pb := get_total_balance E s pi in
    let! cb := get_total_balance E s ci in
    Ok (total, pb, cb)
  end.

(** P 173-215, A 50-102 *)
Definition process_justification_and_finalization (f : Fork) : St BeaconState unit :=
  let* cur := rd (get_current_epoch E) in
  if cur <=? GENESIS_EPOCH + 1 then sret tt
  else
    let* b := rd (target_balances f) in
    weigh_justification_and_finalization (fst (fst b)) (snd (fst b)) (snd b).

(** ** phase0 rewards *)

(** P 656-684 *)
Definition get_base_reward_phase0 (s : BeaconState) (index : N) : res N :=
  let! total := get_total_active_balance E s in
  let! v := idx (validators s) index in
  let! a := mul E (v_effective_balance v) (BASE_REWARD_FACTOR E) in
  let! b := udiv a (N.sqrt total) in
  udiv b BASE_REWARDS_PER_EPOCH.

(** P 686-710 *)
Definition get_proposer_reward (s : BeaconState) (index : N) : res N :=
  let! b := get_base_reward_phase0 s index in udiv b (PROPOSER_REWARD_QUOTIENT E).

(** P 762-811 *)
Definition component_step (s : BeaconState) (total attesting_balance : N) (attesting : list N) (d : list N * list N) (i : N)
    : res (list N * list N) :=
  if memN i attesting then
    let! leak := is_in_inactivity_leak E s in
    let! base := get_base_reward_phase0 s i in
    if (leak : bool) then
      let! r := bump E (fst d) i base in Ok (r, snd d)
    else
      let! ai := udiv attesting_balance (EFFECTIVE_BALANCE_INCREMENT E) in
      let! num := mul E base ai in
      let! ti := udiv total (EFFECTIVE_BALANCE_INCREMENT E) in
      let! q := udiv num ti in
      let! r := bump E (fst d) i q in Ok (r, snd d)
  else
    let! base := get_base_reward_phase0 s i in
    let! p := bump E (snd d) i base in Ok (fst d, p).
Definition get_attestation_component_deltas (s : BeaconState) (l : list PendingAttestation) : res (list N * list N) :=
  let n := lenN (validators s) in
  let! total := get_total_active_balance E s in
  let! attesting := get_unslashed_attesting_indices s l in
  let! ab := get_total_balance E s attesting in
  let! eligible := get_eligible_validator_indices E s in
  rfold (component_step s total ab attesting) eligible (repeatN 0 n, repeatN 0 n).

(** P 813-840, 842-869, 871-898 *)
Definition get_source_deltas (s : BeaconState) : res (list N * list N) :=
  let! prev := get_previous_epoch E s in
  let! l := get_matching_source_attestations s prev in get_attestation_component_deltas s l.
Definition get_target_deltas (s : BeaconState) : res (list N * list N) :=
  let! prev := get_previous_epoch E s in
  let! l := get_matching_target_attestations s prev in get_attestation_component_deltas s l.
Definition get_head_deltas (s : BeaconState) : res (list N * list N) :=
  let! prev := get_previous_epoch E s in
  let! l := get_matching_head_attestations s prev in get_attestation_component_deltas s l.

(** P 929-938: the earliest included attestation of validator [i] *)
Definition earliest_attestation (s : BeaconState) (l : list PendingAttestation) (i : N) : res PendingAttestation :=
  let! mine := rfilter (fun a => let! x := get_attesting_indices E s (pa_data a) (pa_aggregation_bits a) in
                                 Ok (memN i x)) l in
  match mine with [] => Panic | a :: t => Ok (min_delay a t) end.
(** P 928-943 *)
Definition inclusion_step (s : BeaconState) (l : list PendingAttestation) (rewards : list N) (i : N) : res (list N) :=
  let! a := earliest_attestation s l i in
  let! pr := get_proposer_reward s i in
  let! r1 := bump E rewards (pa_proposer_index a) pr in
  let! base := get_base_reward_phase0 s i in
  let! m := sub E base pr in
  let! q := udiv m (pa_inclusion_delay a) in
  bump E r1 i q.
(** P 900-945 *)
Definition get_inclusion_delay_deltas (s : BeaconState) : res (list N * list N) :=
  let n := lenN (validators s) in
  let! prev := get_previous_epoch E s in
  let! l := get_matching_source_attestations s prev in
  let! is := get_unslashed_attesting_indices s l in
  let! r := rfold (inclusion_step s l) is (repeatN 0 n) in
  Ok (r, repeatN 0 n).

(** P 947-993 *)
Definition inactivity_step_phase0 (s : BeaconState) (target : list N) (p : list N) (i : N) : res (list N) :=
  let! base := get_base_reward_phase0 s i in
  let! pr := get_proposer_reward s i in
  let! b4 := mul E BASE_REWARDS_PER_EPOCH base in
  let! x := sub E b4 pr in
  let! p1 := bump E p i x in
  if memN i target then Ok p1
  else
    let! v := idx (validators s) i in
    let! delay := get_finality_delay E s in
    let! y := mul E (v_effective_balance v) delay in
    let! q := udiv y (INACTIVITY_PENALTY_QUOTIENT E) in
    bump E p1 i q.
Definition get_inactivity_penalty_deltas_phase0 (s : BeaconState) : res (list N * list N) :=
  let n := lenN (validators s) in
  let! prev := get_previous_epoch E s in
  let! leak := is_in_inactivity_leak E s in
  if (leak : bool) then
    let! l := get_matching_target_attestations s prev in
    let! target := get_unslashed_attesting_indices s l in
    let! eligible := get_eligible_validator_indices E s in
    let! p := rfold (inactivity_step_phase0 s target) eligible (repeatN 0 n) in
    Ok (repeatN 0 n, p)
  else Ok (repeatN 0 n, repeatN 0 n).

(** pointwise sum of four vectors, P 1024-1035 *)
Definition sum4 (n : N) (a b c d : list N) : res (list N) :=
  rmap (fun i => let! x := idx a i in let! y := idx b i in let! z := idx c i in let! w := idx d i in
                 let! t := add E x y in let! u := add E t z in add E u w) (rangeN n).

(** P 995-1037 *)
Definition get_attestation_deltas (s : BeaconState) : res (list N * list N) :=
  let! src := get_source_deltas s in
  let! tgt := get_target_deltas s in
  let! hd := get_head_deltas s in
  let! inc := get_inclusion_delay_deltas s in
  let! ina := get_inactivity_penalty_deltas_phase0 s in
  let n := lenN (validators s) in
  let! r := sum4 n (fst src) (fst tgt) (fst hd) (fst inc) in
  let! p := sum4 n (snd src) (snd tgt) (snd hd) (snd ina) in
  Ok (r, p).

(** P 244-247, A 193-196: apply one pair of delta vectors *)
Definition apply_deltas (n : N) (d : list N * list N) : St BeaconState unit :=
  sfor (rangeN n) (fun i =>
    let* r := lift (idx (fst d) i) in increase_balance E i r ;;
    let* p := lift (idx (snd d) i) in decrease_balance E i p).

(** P 217-251, A 157-199 (and bellatrix's inactivity quotient) *)
Definition reward_deltas (f : Fork) (s : BeaconState) : res (list (list N * list N)) :=
  match f with
  | Phase0 => let! d := get_attestation_deltas s in Ok [d]
  | _ =>
    let! ds := rmap (fun fw => get_flag_index_deltas E s (fst fw) (snd fw)) FLAG_WEIGHTS in
    let! i := get_inactivity_penalty_deltas_altair E f s in
    Ok (ds ++ [i])
  end.
Definition process_rewards_and_penalties (f : Fork) : St BeaconState unit :=
  let* cur := rd (get_current_epoch E) in
  if cur =? GENESIS_EPOCH then sret tt
  else
    let* ds := rd (reward_deltas f) in
    let* n := rd (fun s => Ok (lenN (validators s))) in
    sfor ds (apply_deltas n).

(** ** Inactivity scores: A 104-155 *)
Definition inactivity_update_step (participating : list N) (not_leaking : bool) (i : N) : St BeaconState unit :=
  let* sc := rd (fun s => idx (inactivity_scores s) i) in
  let* sc1 := lift (if memN i participating then sub E sc (N.min 1 sc) else add E sc (INACTIVITY_SCORE_BIAS E)) in
  md (fun s => set_inactivity_scores (updN (inactivity_scores s) i sc1) s) ;;
  swhen not_leaking
    (let* sc2 := rd (fun s => let! x := idx (inactivity_scores s) i in
                              sub E x (N.min (INACTIVITY_SCORE_RECOVERY_RATE E) x)) in
     md (fun s => set_inactivity_scores (updN (inactivity_scores s) i sc2) s)).
Definition process_inactivity_updates : St BeaconState unit :=
  let* cur := rd (get_current_epoch E) in
  if cur =? GENESIS_EPOCH then sret tt
  else
    let* eligible := rd (get_eligible_validator_indices E) in
    let* participating := rd (fun s =>
      let! prev := get_previous_epoch E s in
      get_unslashed_participating_indices E s TIMELY_TARGET_FLAG_INDEX prev) in
    let* leak := rd (is_in_inactivity_leak E) in
    sfor eligible (inactivity_update_step participating (negb leak)).

(** ** Registry: P 253-319, D 11-74, L 67-122 *)

(** P 278-289: one validator of the first loop *)
Definition queue_eligible (f : Fork) (v : Validator) : bool :=
  match f with
  | Electra => is_eligible_for_activation_queue_electra E v
  | _ => is_eligible_for_activation_queue E v
  end.
Definition registry_step (f : Fork) (cur : N) (i : N) : St BeaconState unit :=
  let* v := rd (fun s => idx (validators s) i) in
  swhen (queue_eligible f v)
    (let* e := lift (add E cur 1) in mod_validator i (set_v_activation_eligibility_epoch e)) ;;
  let* v' := rd (fun s => idx (validators s) i) in
  swhen (is_active_validator v' cur && (v_effective_balance v' <=? EJECTION_BALANCE E)) (initiate_exit E f i).

(** P 292-310: indices of the validators eligible for activation, sorted by (eligibility epoch, index) *)
Fixpoint eligible_activations (s : BeaconState) (vs : list Validator) (i : N) : list (N * N) :=
  match vs with
  | [] => []
  | v :: t => (if is_eligible_for_activation s v then [(v_activation_eligibility_epoch v, i)] else [])
              ++ eligible_activations s t (i + 1)
  end.
Definition key_leb (a b : N * N) : bool := (fst a <? fst b) || ((fst a =? fst b) && (snd a <=? snd b)).
Fixpoint key_insert (x : N * N) (l : list (N * N)) : list (N * N) :=
  match l with
  | [] => [x]
  | y :: t => if key_leb x y then x :: l else y :: key_insert x t
  end.
Definition key_sort (l : list (N * N)) : list (N * N) := fold_right key_insert [] l.
Definition activation_queue (s : BeaconState) : list N := map snd (key_sort (eligible_activations s (validators s) 0)).

(** the cap on activations per epoch; electra has none *)
Definition activation_limit (f : Fork) (s : BeaconState) : res N :=
  match f with
  | Deneb => get_validator_activation_churn_limit E s
  | _ => get_validator_churn_limit E s
  end.
Definition process_registry_updates (f : Fork) : St BeaconState unit :=
  let* cur := rd (get_current_epoch E) in
  let* n := rd (fun s => Ok (lenN (validators s))) in
  sfor (rangeN n) (registry_step f cur) ;;
  match f with
  | Electra =>
    let* ae := lift (compute_activation_exit_epoch E cur) in
    sfor (rangeN n) (fun i =>
      let* v := rd (fun s => idx (validators s) i) in
      let* e := rd (fun s => Ok (is_eligible_for_activation s v)) in
      swhen e (mod_validator i (set_v_activation_epoch ae)))
  | _ =>
    let* queue := rd (fun s => Ok (activation_queue s)) in
    let* ae := lift (compute_activation_exit_epoch E cur) in
    let* limit := rd (activation_limit f) in
    sfor (firstN limit queue) (fun i => mod_validator i (set_v_activation_epoch ae))
  end.

(** ** Slashings: P 321-364, A 230-271, B 14-59 *)
Definition slashing_multiplier (f : Fork) : N :=
  match f with
  | Phase0 => PROPORTIONAL_SLASHING_MULTIPLIER E
  | Altair => PROPORTIONAL_SLASHING_MULTIPLIER_ALTAIR E
  | _ => PROPORTIONAL_SLASHING_MULTIPLIER_BELLATRIX E
  end.
Definition slashings_step (epoch total adjusted i : N) : St BeaconState unit :=
  let* v := rd (fun s => idx (validators s) i) in
  if v_slashed v then
    let* e := lift (add E epoch (EPOCHS_PER_SLASHINGS_VECTOR E / 2)) in
    swhen (e =? v_withdrawable_epoch v)
      (let* p := lift (let! q := udiv (v_effective_balance v) (EFFECTIVE_BALANCE_INCREMENT E) in
                       let! num := mul E q adjusted in
                       let! r := udiv num total in
                       mul E r (EFFECTIVE_BALANCE_INCREMENT E)) in
       decrease_balance E i p)
  else sret tt.
Definition process_slashings (f : Fork) : St BeaconState unit :=
  let* epoch := rd (get_current_epoch E) in
  let* total := rd (get_total_active_balance E) in
  let* adjusted := rd (fun s =>
    let! sum := rfold (add E) (slashings s) 0 in
    let! m := mul E sum (slashing_multiplier f) in
    Ok (N.min m total)) in
  let* n := rd (fun s => Ok (lenN (validators s))) in
  sfor (rangeN n) (slashings_step epoch total adjusted).

(** ** Resets *)

(** [get_current_epoch(state) + 1] *)
Definition next_epoch (s : BeaconState) : res N := let! e := get_current_epoch E s in add E e 1.

(** P 366-393 *)
Definition process_eth1_data_reset : St BeaconState unit :=
  let* m := rd (fun s => let! e := next_epoch s in umod e (EPOCHS_PER_ETH1_VOTING_PERIOD E)) in
  swhen (m =? 0) (md (set_eth1_data_votes [])).

(** P 395-433, L 242-296 *)
Definition effective_balance_limit (f : Fork) (v : Validator) : N :=
  match f with Electra => get_validator_max_effective_balance E v | _ => MAX_EFFECTIVE_BALANCE E end.
Definition effective_balance_step (f : Fork) (down up i : N) : St BeaconState unit :=
  let* v := rd (fun s => idx (validators s) i) in
  let* b := rd (fun s => idx (balances s) i) in
  let eff := v_effective_balance v in
  let* c := lift (let! x := add E b down in
                  if x <? eff then Ok true else let! y := add E eff up in Ok (y <? b)) in
  swhen c
    (let* e := lift (let! m := umod b (EFFECTIVE_BALANCE_INCREMENT E) in sub E b m) in
     mod_validator i (set_v_effective_balance (N.min e (effective_balance_limit f v)))).
Definition process_effective_balance_updates (f : Fork) : St BeaconState unit :=
  let* th := lift (let! h := udiv (EFFECTIVE_BALANCE_INCREMENT E) (HYSTERESIS_QUOTIENT E) in
                   let! d := mul E h (HYSTERESIS_DOWNWARD_MULTIPLIER E) in
                   let! u := mul E h (HYSTERESIS_UPWARD_MULTIPLIER E) in Ok (d, u)) in
  let* n := rd (fun s => Ok (lenN (validators s))) in
  sfor (rangeN n) (effective_balance_step f (fst th) (snd th)).

(** P 435-461 *)
Definition process_slashings_reset : St BeaconState unit :=
  let* i := rd (fun s => let! e := next_epoch s in umod e (EPOCHS_PER_SLASHINGS_VECTOR E)) in
  rd (fun s => let! _ := idx (slashings s) i in Ok tt) ;;
  md (fun s => set_slashings (updN (slashings s) i 0) s).

(** P 463-489 *)
Definition process_randao_mixes_reset : St BeaconState unit :=
  let* r := rd (fun s =>
    let! cur := get_current_epoch E s in
    let! nxt := next_epoch s in
    let! i := umod nxt (EPOCHS_PER_HISTORICAL_VECTOR E) in
    let! mix := get_randao_mix E s cur in
    let! _ := idx (randao_mixes s) i in
    Ok (i, mix)) in
  md (fun s => set_randao_mixes (updN (randao_mixes s) (fst r) (snd r)) s).

(** P 513-519, C 39-44: the summary due at the end of this epoch *)
Definition historical_summary_due (s : BeaconState) : res (option HistoricalSummary) :=
  let! e := next_epoch s in
  let! per := udiv (SLOTS_PER_HISTORICAL_ROOT E) (SLOTS_PER_EPOCH E) in
  let! m := umod e per in
  if m =? 0 then
    let! b := htr_r E (ORoots (block_roots s)) in
    let! r := htr_r E (ORoots (state_roots s)) in
    Ok (Some (mkHistSum b r))
  else Ok None.

(** P 491-523 (before capella), C 13-48 (capella on) *)
Definition process_historical_update (f : Fork) : St BeaconState unit :=
  let* o := rd historical_summary_due in
  match o with
  | None => sret tt
  | Some h =>
    if fork_le Capella f then md (fun s => set_historical_summaries (historical_summaries s ++ [h]) s)
    else
      let* root := lift (htr_r E (OHistoricalSummary h)) in
      md (fun s => set_historical_roots (historical_roots s ++ [root]) s)
  end.

(** P 525-548 *)
Definition process_participation_record_updates : St BeaconState unit :=
  md (fun s => set_current_epoch_attestations []
                 (set_previous_epoch_attestations (current_epoch_attestations s) s)).

(** A 201-228 *)
Definition process_participation_flag_updates : St BeaconState unit :=
  md (fun s => set_current_epoch_participation (repeatN 0 (lenN (validators s)))
                 (set_previous_epoch_participation (current_epoch_participation s) s)).

(** A 273-303 *)
Definition process_sync_committee_updates : St BeaconState unit :=
  let* m := rd (fun s => let! e := next_epoch s in umod e (EPOCHS_PER_SYNC_COMMITTEE_PERIOD E)) in
  swhen (m =? 0)
    (let* c := rd (get_next_sync_committee E) in
     md (fun s => set_current_sync_committee (next_sync_committee s) (set_next_sync_committee c s))).

(** ** electra queues *)

(** L 161-171: returns (processed amount, number of deposits consumed) *)
Fixpoint pending_deposits_loop (l : list PendingBalanceDeposit) (available processed count : N) : St BeaconState (N * N) :=
  match l with
  | [] => sret (processed, count)
  | d :: t =>
    let* p := lift (add E processed (pbd_amount d)) in
    if available <? p then sret (processed, count)
    else
      increase_balance E (pbd_index d) (pbd_amount d) ;;
      pending_deposits_loop t available p (count + 1)
  end.
(** L 124-182 *)
Definition process_pending_balance_deposits : St BeaconState unit :=
  let* available := rd (fun s =>
    let! c := get_activation_exit_churn_limit E s in add E (deposit_balance_to_consume s) c) in
  let* l := rd (fun s => Ok (pending_balance_deposits s)) in
  let* r := pending_deposits_loop l available 0 0 in
  md (fun s => set_pending_balance_deposits (skipN (snd r) (pending_balance_deposits s)) s) ;;
  let* rest := rd (fun s => match pending_balance_deposits s with [] => Ok 0 | _ => sub E available (fst r) end) in
  md (set_deposit_balance_to_consume rest).

(** L 217-235: returns the number of consolidations consumed.  The Rust loop re-reads the queue by index; nothing in the
    body modifies it *)
Fixpoint pending_consolidations_loop (l : list PendingConsolidation) (count : N) : St BeaconState N :=
  match l with
  | [] => sret count
  | c :: t =>
    let* src := rd (fun s => idx (validators s) (pc_source_index c)) in
    if v_slashed src then pending_consolidations_loop t (count + 1)
    else
      let* cur := rd (get_current_epoch E) in
      if cur <? v_withdrawable_epoch src then sret count
      else
        switch_to_compounding_validator E (pc_target_index c) ;;
        let* ab := rd (fun s => get_active_balance E s (pc_source_index c)) in
        decrease_balance E (pc_source_index c) ab ;;
        increase_balance E (pc_target_index c) ab ;;
        pending_consolidations_loop t (count + 1)
  end.
(** L 184-240 *)
Definition process_pending_consolidations : St BeaconState unit :=
  let* l := rd (fun s => Ok (pending_consolidations s)) in
  let* n := pending_consolidations_loop l 0 in
  md (fun s => set_pending_consolidations (skipN n (pending_consolidations s)) s).

(** P 1039-1072, A 305-340, B 61-100, C 50-89, L 18-65; deneb uses a copy of C 50-89 *)
Definition process_epoch (f : Fork) : St BeaconState unit :=
  process_justification_and_finalization f ;;
  swhen (fork_le Altair f) process_inactivity_updates ;;
  process_rewards_and_penalties f ;;
  process_registry_updates f ;;
  process_slashings f ;;
  process_eth1_data_reset ;;
  swhen (fork_le Electra f) (process_pending_balance_deposits ;; process_pending_consolidations) ;;
  process_effective_balance_updates f ;;
  process_slashings_reset ;;
  process_randao_mixes_reset ;;
  process_historical_update f ;;
  (match f with
   | Phase0 => process_participation_record_updates
   | _ => process_participation_flag_updates ;; process_sync_committee_updates
   end).

End WithEnv.
