(** * Specification vocabulary: fork upgrades *)
From Verif Require Import Base Types Ctx Env SpecCommon SpecHelpers SpecElectra SpecOps SpecBlock SpecAtt SpecEpoch.
From Coq Require Import Sorted.

(** clock, histories, deposit data, randomness, slashings and finality are carried over *)
Definition keeps_history (s s' : BeaconState) : Prop :=
  genesis_time s' = genesis_time s /\ genesis_validators_root s' = genesis_validators_root s /\ slot s' = slot s
  /\ latest_block_header s' = latest_block_header s /\ block_roots s' = block_roots s /\ state_roots s' = state_roots s
  /\ historical_roots s' = historical_roots s /\ eth1_data s' = eth1_data s /\ eth1_data_votes s' = eth1_data_votes s
  /\ eth1_deposit_index s' = eth1_deposit_index s /\ randao_mixes s' = randao_mixes s /\ slashings s' = slashings s
  /\ justification_bits s' = justification_bits s /\ previous_justified_checkpoint s' = previous_justified_checkpoint s
  /\ current_justified_checkpoint s' = current_justified_checkpoint s /\ finalized_checkpoint s' = finalized_checkpoint s.
Definition keeps_registry (s s' : BeaconState) : Prop := validators s' = validators s /\ balances s' = balances s.
(** components introduced by altair, by capella *)
Definition keeps_altair (s s' : BeaconState) : Prop :=
  previous_epoch_participation s' = previous_epoch_participation s /\ current_epoch_participation s' = current_epoch_participation s
  /\ inactivity_scores s' = inactivity_scores s /\ current_sync_committee s' = current_sync_committee s /\ next_sync_committee s' = next_sync_committee s.
Definition keeps_capella (s s' : BeaconState) : Prop :=
  next_withdrawal_index s' = next_withdrawal_index s /\ next_withdrawal_validator_index s' = next_withdrawal_validator_index s
  /\ historical_summaries s' = historical_summaries s.
(** execution header components introduced by bellatrix *)
Definition keeps_header (h h' : ExecutionPayloadHeader) : Prop :=
  eph_parent_hash h' = eph_parent_hash h /\ eph_fee_recipient h' = eph_fee_recipient h /\ eph_state_root h' = eph_state_root h
  /\ eph_receipts_root h' = eph_receipts_root h /\ eph_logs_bloom h' = eph_logs_bloom h /\ eph_prev_randao h' = eph_prev_randao h
  /\ eph_block_number h' = eph_block_number h /\ eph_gas_limit h' = eph_gas_limit h /\ eph_gas_used h' = eph_gas_used h
  /\ eph_timestamp h' = eph_timestamp h /\ eph_extra_data h' = eph_extra_data h /\ eph_base_fee_per_gas h' = eph_base_fee_per_gas h
  /\ eph_block_hash h' = eph_block_hash h /\ eph_transactions_root h' = eph_transactions_root h.
(** the fork record after an upgrade to [version] *)
Definition fork_recorded (E : Env) (s s' : BeaconState) (version : bytes) : Prop :=
  fk_previous_version (fork s') = fk_current_version (fork s) /\ fk_current_version (fork s') = version /\ fk_epoch (fork s') = epoch_of E s.

(** ** to altair *)
(** a recorded attestation of phase0 that is consistent with the state *)
Definition pending_consistent (E : Env) (s : BeaconState) (a : PendingAttestation) : Prop :=
  let d := pa_data a in
  attestation_timely E Deneb s d /\ ad_source d = justified_for E s d
  /\ ad_index d < committees_in_slot E s (cp_epoch (ad_target d))
  /\ exists com, is_committee E s (ad_slot d) (ad_index d) com /\ lenN (pa_aggregation_bits a) = lenN com.
(** validator [i] took part in the recorded attestation [a] *)
Definition took_part (E : Env) (s : BeaconState) (a : PendingAttestation) (i : N) : Prop :=
  exists com k, is_committee E s (ad_slot (pa_data a)) (ad_index (pa_data a)) com
    /\ nthN (pa_aggregation_bits a) k = Some true /\ nthN com k = Some i.

(** ** to electra *)
(** the first epoch after every scheduled exit (and after the current epoch when there is none) *)
Definition is_after_exits (E : Env) (s : BeaconState) (e : N) : Prop :=
  let scheduled := filter (fun x => negb (x =? FAR_FUTURE_EPOCH)) (map v_exit_epoch (validators s)) in
  match scheduled with
  | [] => e = epoch_of E s + 1
  | _ => (forall x, In x scheduled -> x < e) /\ In (e - 1) scheduled
  end.
(** a validator that was never activated *)
Definition not_activated (s : BeaconState) (i : N) : bool :=
  match nthN (validators s) i with Some v => v_activation_epoch v =? FAR_FUTURE_EPOCH | None => false end.
Definition is_compounding (s : BeaconState) (i : N) : bool :=
  match nthN (validators s) i with Some v => kind_is 2 v | None => false end.
Definition balance_at (s : BeaconState) (i : N) : N := match nthN (balances s) i with Some b => b | None => 0 end.
(** the never-activated validators, by eligibility epoch and then by index *)
Definition is_preactivation_order (s : BeaconState) (l : list N) : Prop :=
  StronglySorted (queued_before s) l /\ forall i, In i l <-> not_activated s i = true.
(** activated compounding validators with more than the activation balance, by index *)
Definition with_excess (E : Env) (s : BeaconState) : list N :=
  filter (fun i => is_compounding s i && negb (not_activated s i) && (MIN_ACTIVATION_BALANCE E <? balance_at s i)) (rangeN (lenN (validators s))).
(** what the upgrade leaves in the balances *)
Definition upgraded_balance (E : Env) (s : BeaconState) (i : N) : N :=
  if not_activated s i then 0 else if is_compounding s i then N.min (balance_at s i) (MIN_ACTIVATION_BALANCE E) else balance_at s i.
(** the validator record after the upgrade *)
Definition upgraded_record (v : Validator) : Validator :=
  if v_activation_epoch v =? FAR_FUTURE_EPOCH then set_v_activation_eligibility_epoch FAR_FUTURE_EPOCH (set_v_effective_balance 0 v) else v.
(** total queued for a validator *)
Definition queued_for (l : list PendingBalanceDeposit) (i : N) : N := sumN (map pbd_amount (filter (fun d => pbd_index d =? i) l)).
