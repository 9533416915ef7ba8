(** * HelpersElectra: electra/helpers.rs, and [initiate_validator_exit]/[slash_validator] of every fork

    Line numbers refer to ethereum-consensus/src/electra/helpers.rs unless another file is named. *)
From Verif Require Export HelpersAltair.

(** electra/constants.rs:3-4 *)
Definition UNSET_DEPOSIT_RECEIPTS_START_INDEX : N := U64_MAX.
Definition FULL_EXIT_REQUEST_AMOUNT : N := 0.

(** 27-29, 31-33, 35-37 *)
Definition is_compounding_withdrawal_credential (wc : bytes) : bool :=
  match wc with b :: _ => b =? COMPOUNDING_WITHDRAWAL_PREFIX | [] => false end.
Definition has_compounding_withdrawal_credential (v : Validator) : bool :=
  is_compounding_withdrawal_credential (v_withdrawal_credentials v).
Definition has_execution_withdrawal_credential (v : Validator) : bool :=
  has_compounding_withdrawal_credential v || has_eth1_withdrawal_credential v.

(** 39-43 *)
Definition is_fully_withdrawable_validator_electra (v : Validator) (balance epoch : N) : bool :=
  has_execution_withdrawal_credential v && (v_withdrawable_epoch v <=? epoch) && (0 <? balance).

(** 58-62 *)
Fixpoint committee_indices_from (bits : list bool) (i : N) : list N :=
  match bits with
  | [] => []
  | b :: t => if b then i :: committee_indices_from t (i + 1) else committee_indices_from t (i + 1)
  end.
Definition get_committee_indices (bits : list bool) : list N := committee_indices_from bits 0.

(** [iter().enumerate()] *)
Fixpoint enumN {A} (i : N) (l : list A) : list (N * A) :=
  match l with [] => [] | x :: t => (i, x) :: enumN (i + 1) t end.

(** first position of a public key in the registry ([iter().position(..)], [iter().enumerate().find(..)]) *)
Fixpoint position_pk (pk : bytes) (vs : list Validator) (i : N) : option N :=
  match vs with
  | [] => None
  | v :: t => if bytes_eqb (v_public_key v) pk then Some i else position_pk pk t (i + 1)
  end.

Section WithEnv.
Variable E : Env.

(** 21-25 *)
Definition is_eligible_for_activation_queue_electra (v : Validator) : bool :=
  (v_activation_eligibility_epoch v =? FAR_FUTURE_EPOCH) && (MIN_ACTIVATION_BALANCE E <=? v_effective_balance v).

(** 64-70 *)
Definition get_validator_max_effective_balance (v : Validator) : N :=
  if has_compounding_withdrawal_credential v then MAX_EFFECTIVE_BALANCE_ELECTRA E else MIN_ACTIVATION_BALANCE E.

(** 45-56 *)
Definition is_partially_withdrawable_validator_electra (v : Validator) (balance : N) : bool :=
  let m := get_validator_max_effective_balance v in
  has_execution_withdrawal_credential v && (v_effective_balance v =? m) && (m <? balance).

(** 72-107 *)
Definition get_balance_churn_limit (s : BeaconState) : res N :=
  let! t := get_total_active_balance E s in
  let! q := udiv t (CHURN_LIMIT_QUOTIENT E) in
  let churn := N.max (MIN_PER_EPOCH_CHURN_LIMIT_ELECTRA E) q in
  let! m := umod churn (EFFECTIVE_BALANCE_INCREMENT E) in
  sub E churn m.

(** 109-143 *)
Definition get_activation_exit_churn_limit (s : BeaconState) : res N :=
  let! c := get_balance_churn_limit s in
  Ok (N.min (MAX_PER_EPOCH_ACTIVATION_EXIT_CHURN_LIMIT E) c).

(** 145-178 *)
Definition get_consolidation_churn_limit (s : BeaconState) : res N :=
  let! a := get_balance_churn_limit s in
  let! b := get_activation_exit_churn_limit s in
  sub E a b.

(** 180-216 *)
Definition get_active_balance (s : BeaconState) (i : N) : res N :=
  let! v := idx (validators s) i in
  let! b := idx (balances s) i in
  Ok (N.min b (get_validator_max_effective_balance v)).

(** 218-261; [sum] panics on overflow in debug builds *)
Definition get_pending_balance_to_withdraw (s : BeaconState) (i : N) : res N :=
  rfold (fun acc w => add E acc (ppw_amount w)) (filter (fun w => ppw_index w =? i) (pending_partial_withdrawals s)) 0.

(** 304-308: one committee; [aggregation_bits[committee_offset + i]] panics out of range *)
Definition committee_attesters (bits : list bool) (offset : N) (committee : list N) : res (list N) :=
  let! l := rfilter (fun p => idx bits (offset + fst p)) (enumN 0 committee) in
  Ok (map snd l).

(** 263-312 *)
Definition get_attesting_indices_electra (s : BeaconState) (a : Attestation) : res (list N) :=
  let! l := rfold (fun acc p =>
              let! committee := get_beacon_committee E s (ad_slot (at_data a)) (snd p) in
              let! l := committee_attesters (at_aggregation_bits a) (fst p) committee in
              Ok (acc ++ l)) (enumN 0 (get_committee_indices (at_committee_bits a))) [] in
  Ok (dedupN l).

(** 314-359; the bound is the const generic MAX_VALIDATORS_PER_SLOT = MAX_VALIDATORS_PER_COMMITTEE * MAX_COMMITTEES_PER_SLOT *)
Definition get_indexed_attestation_electra (s : BeaconState) (a : Attestation) : res IndexedAttestation :=
  let! ai := get_attesting_indices_electra s a in
  let sorted := isort ai in
  if MAX_VALIDATORS_PER_COMMITTEE E * MAX_COMMITTEES_PER_SLOT E <? lenN sorted then Err ESimpleSerialize
  else Ok (mkIndexed sorted (at_data a) (at_signature a)).

(** 579-584 and 637-642: the churn arithmetic shared by exits and consolidations, as a pure function of
    (churn per epoch, earliest epoch stored, budget stored, activation-exit epoch, balance) returning
    (new earliest epoch, new budget) *)
Definition churn_step (per_epoch stored_epoch stored_budget activation_epoch balance : N) : res (N * N) :=
  let earliest := N.max stored_epoch activation_epoch in
  let budget := if stored_epoch <? earliest then per_epoch else stored_budget in
  let! eb := (if budget <? balance then
                let! to_process := sub E balance budget in
                let! p1 := sub E to_process 1 in
                let! q := udiv p1 per_epoch in
                let! additional := add E q 1 in
                let! e' := add E earliest additional in
                let! m := mul E additional per_epoch in
                let! b' := add E budget m in
                Ok (e', b')
              else Ok (earliest, budget)) in
  let! rest := sub E (snd eb) balance in
  Ok (fst eb, rest).

(** 536-590 *)
Definition compute_exit_epoch_and_update_churn (exit_balance : N) : St BeaconState N :=
  let* r := rd (fun s =>
    let! e := get_current_epoch E s in
    let! ae := compute_activation_exit_epoch E e in
    let! per_epoch := get_activation_exit_churn_limit s in
    churn_step per_epoch (earliest_exit_epoch s) (exit_balance_to_consume s) ae exit_balance) in
  md (fun s => set_earliest_exit_epoch (fst r) (set_exit_balance_to_consume (snd r) s)) ;;
  sret (fst r).

(** 592-649 *)
Definition compute_consolidation_epoch_and_update_churn (balance : N) : St BeaconState N :=
  let* r := rd (fun s =>
    let! e := get_current_epoch E s in
    let! ae := compute_activation_exit_epoch E e in
    let! per_epoch := get_activation_exit_churn_limit s in
    churn_step per_epoch (earliest_consolidation_epoch s) (consolidation_balance_to_consume s) ae balance) in
  md (fun s => set_earliest_consolidation_epoch (fst r) (set_consolidation_balance_to_consume (snd r) s)) ;;
  sret (fst r).

(** 361-410 *)
Definition initiate_validator_exit_electra (index : N) : St BeaconState unit :=
  let* v := rd (fun s => idx (validators s) index) in
  if negb (v_exit_epoch v =? FAR_FUTURE_EPOCH) then sret tt
  else
    let* q := compute_exit_epoch_and_update_churn (v_effective_balance v) in
    mod_validator index (set_v_exit_epoch q) ;;
    let* w := lift (ok_or (cadd q (MIN_VALIDATOR_WITHDRAWABILITY_DELAY E)) EOverflow) in
    mod_validator index (set_v_withdrawable_epoch w).

(** 452-493; pushing on the bounded list is modelled as unbounded *)
Definition queue_excess_active_balance (index : N) : St BeaconState unit :=
  let* balance := rd (fun s => idx (balances s) index) in
  if MIN_ACTIVATION_BALANCE E <? balance then
    let* excess := lift (ok_or (csub balance (MIN_ACTIVATION_BALANCE E)) EUnderflow) in
    md (fun s => set_balances (updN (balances s) index (MIN_ACTIVATION_BALANCE E)) s) ;;
    md (fun s => set_pending_balance_deposits (pending_balance_deposits s ++ [mkPBD index excess]) s)
  else sret tt.

(** 412-450 *)
Definition switch_to_compounding_validator (index : N) : St BeaconState unit :=
  let* v := rd (fun s => idx (validators s) index) in
  if has_eth1_withdrawal_credential v then
    mod_validator index (fun v => set_v_withdrawal_credentials
       (COMPOUNDING_WITHDRAWAL_PREFIX :: skipn 1 (v_withdrawal_credentials v)) v) ;;
    queue_excess_active_balance index
  else sret tt.

(** 495-534 *)
Definition queue_entire_balance_and_reset_validator (index : N) : St BeaconState unit :=
  let* balance := rd (fun s => idx (balances s) index) in
  md (fun s => set_balances (updN (balances s) index 0) s) ;;
  mod_validator index (fun v => set_v_activation_eligibility_epoch FAR_FUTURE_EPOCH (set_v_effective_balance 0 v)) ;;
  md (fun s => set_pending_balance_deposits (pending_balance_deposits s ++ [mkPBD index balance]) s).

(** the [initiate_validator_exit] in scope in each fork's module *)
Definition initiate_exit (f : Fork) (index : N) : St BeaconState unit :=
  match f with
  | Electra => initiate_validator_exit_electra index
  | _ => initiate_validator_exit E index
  end.

(** phase0/helpers.rs:1124, altair/helpers.rs:397, bellatrix/helpers.rs:102, electra/helpers.rs:698 *)
Definition slashing_penalty_quotient (f : Fork) : N :=
  match f with
  | Phase0 => MIN_SLASHING_PENALTY_QUOTIENT E
  | Altair => MIN_SLASHING_PENALTY_QUOTIENT_ALTAIR E
  | Electra => MIN_SLASHING_PENALTY_QUOTIENT_ELECTRA E
  | _ => MIN_SLASHING_PENALTY_QUOTIENT_BELLATRIX E
  end.
Definition whistleblower_quotient (f : Fork) : N :=
  match f with Electra => WHISTLEBLOWER_REWARD_QUOTIENT_ELECTRA E | _ => WHISTLEBLOWER_REWARD_QUOTIENT E end.
(** phase0: [wr / proposer_reward_quotient]; later forks: [wr * (PROPOSER_WEIGHT / WEIGHT_DENOMINATOR)] *)
Definition slashing_proposer_reward (f : Fork) (wr : N) : res N :=
  match f with
  | Phase0 => udiv wr (PROPOSER_REWARD_QUOTIENT E)
  | _ => let! scaling := udiv PROPOSER_WEIGHT WEIGHT_DENOMINATOR in mul E wr scaling
  end.

(** phase0/helpers.rs:1088-1137, altair/helpers.rs:360-411, bellatrix/helpers.rs:61-113, electra/helpers.rs:651-709 *)
Definition slash_validator (f : Fork) (slashed_index : N) (whistleblower : option N) : St BeaconState unit :=
  let* epoch := rd (get_current_epoch E) in
  initiate_exit f slashed_index ;;
  mod_validator slashed_index (set_v_slashed true) ;;
  let* lim := lift (add E epoch (EPOCHS_PER_SLASHINGS_VECTOR E)) in
  mod_validator slashed_index (fun v => set_v_withdrawable_epoch (N.max (v_withdrawable_epoch v) lim) v) ;;
  let* i := lift (umod epoch (EPOCHS_PER_SLASHINGS_VECTOR E)) in
  let* v := rd (fun s => idx (validators s) slashed_index) in
  let eff := v_effective_balance v in
  let* x := rd (fun s => let! a := idx (slashings s) i in add E a eff) in
  md (fun s => set_slashings (updN (slashings s) i x) s) ;;
  let* penalty := lift (udiv eff (slashing_penalty_quotient f)) in
  decrease_balance E slashed_index penalty ;;
  let* proposer := rd (get_beacon_proposer_index E) in
  let wb := match whistleblower with Some w => w | None => proposer end in
  let* wr := lift (udiv eff (whistleblower_quotient f)) in
  let* pr := lift (slashing_proposer_reward f wr) in
  increase_balance E proposer pr ;;
  let* rest := lift (sub E wr pr) in
  increase_balance E wb rest.

End WithEnv.
