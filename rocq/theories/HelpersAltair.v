(** * HelpersAltair: altair/helpers.rs, and the helpers that bellatrix, capella and deneb add or replace

    Line numbers refer to ethereum-consensus/src/altair/helpers.rs unless another file is named. *)
From Verif Require Export Helpers.

(** altair/constants.rs *)
Definition TIMELY_SOURCE_FLAG_INDEX : N := 0.
Definition TIMELY_TARGET_FLAG_INDEX : N := 1.
Definition TIMELY_HEAD_FLAG_INDEX : N := 2.
Definition SYNC_REWARD_WEIGHT : N := 2.
Definition PROPOSER_WEIGHT : N := 8.
Definition WEIGHT_DENOMINATOR : N := 64.
(** PARTICIPATION_FLAG_WEIGHTS, paired with its indices ([iter().enumerate()]) *)
Definition FLAG_WEIGHTS : list (N * N) := [(0, 14); (1, 26); (2, 14)].

(** 27-30, 33-36; only called with flag_index in 0..3, where [2u8.pow] cannot overflow *)
Definition add_flag (flags i : N) : N := N.lor flags (2 ^ i).
Definition has_flag (flags i : N) : bool := N.land flags (2 ^ i) =? 2 ^ i.

Fixpoint rfilter {A} (f : A -> res bool) (l : list A) : res (list A) :=
  match l with
  | [] => Ok []
  | x :: t => let! b := f x in let! r := rfilter f t in Ok (if (b : bool) then x :: r else r)
  end.

(** primitives.rs:47-49 *)
Definition BLS_WITHDRAWAL_PREFIX : N := 0.
Definition ETH1_ADDRESS_WITHDRAWAL_PREFIX : N := 1.
Definition COMPOUNDING_WITHDRAWAL_PREFIX : N := 2.

(** [withdrawal_credentials[0]]; the credentials are 32 bytes by type, so the default is never used *)
Definition cred_prefix (v : Validator) : N := match v_withdrawal_credentials v with b :: _ => b | [] => 255 end.
(** [&withdrawal_credentials[12..]] as an [ExecutionAddress] *)
Definition cred_address (v : Validator) : bytes := skipn 12 (v_withdrawal_credentials v).

(** capella/helpers.rs:7-9, 11-15 *)
Definition has_eth1_withdrawal_credential (v : Validator) : bool := cred_prefix v =? ETH1_ADDRESS_WITHDRAWAL_PREFIX.
Definition is_fully_withdrawable_validator (v : Validator) (balance epoch : N) : bool :=
  has_eth1_withdrawal_credential v && (v_withdrawable_epoch v <=? epoch) && (0 <? balance).

Section WithEnv.
Variable E : Env.

(** capella/helpers.rs:17-25 *)
Definition is_partially_withdrawable_validator (v : Validator) (balance : N) : bool :=
  has_eth1_withdrawal_credential v && (v_effective_balance v =? MAX_EFFECTIVE_BALANCE E)
  && (MAX_EFFECTIVE_BALANCE E <? balance).

(** deneb/helpers.rs:16-21.  [VERSIONED_HASH_VERSION_KZG] = 1 (deneb/blob_sidecar.rs). *)
Definition kzg_commitment_to_versioned_hash (c : bytes) : bytes := 1 :: skipn 1 (hash E c).

(** deneb/helpers.rs:86-114 *)
Definition get_validator_activation_churn_limit (s : BeaconState) : res N :=
  let! l := get_validator_churn_limit E s in
  Ok (N.min (MAX_PER_EPOCH_ACTIVATION_CHURN_LIMIT E) l).

(** one candidate of the loop 70-88 *)
Definition sync_candidate (s : BeaconState) (seed : bytes) (active : list N) (i : N) : res (N * bool) :=
  let count := lenN active in
  let! im := umod i count in
  let! si := compute_shuffled_index E im count seed in
  let! c := idx active si in
  let! random_byte := idx (hash E (seed ++ to_le 8 (i / 32))) (i mod 32) in
  let! v := idx (validators s) c in
  let! a := mul E (v_effective_balance v) 255 in
  let! b := mul E (MAX_EFFECTIVE_BALANCE E) random_byte in
  Ok (c, b <=? a).

(** 70-88: [while sync_committee_indices.len() < SYNC_COMMITTEE_SIZE] *)
Fixpoint sync_loop (n : nat) (s : BeaconState) (seed : bytes) (active : list N) (i : N) (acc : list N) : res (list N) :=
  if SYNC_COMMITTEE_SIZE E <=? lenN acc then Ok acc
  else match n with
       | O => Diverge
       | S n' =>
         let! r := sync_candidate s seed active i in
         sync_loop n' s seed active (i + 1) (if snd r then acc ++ [fst r] else acc)
       end.

(** 39-90 *)
Definition get_next_sync_committee_indices (s : BeaconState) : res (list N) :=
  let! e := get_current_epoch E s in
  let! epoch := add E e 1 in
  let active := get_active_validator_indices s epoch in
  let! seed := get_seed E s epoch DSyncCommittee in
  sync_loop (fuel E) s seed active 0 [].

(** crypto/bls.rs:134-150 *)
Definition eth_aggregate_public_keys (pks : list bytes) : res bytes :=
  match pks with
  | [] => Err EBls
  | _ => ok_or (aggregate_pks E pks) EBls
  end.

(** 93-123 *)
Definition get_next_sync_committee (s : BeaconState) : res SyncCommittee :=
  let! indices := get_next_sync_committee_indices s in
  let! pks := rmap (fun i => let! v := idx (validators s) i in Ok (v_public_key v)) indices in
  let! agg := eth_aggregate_public_keys pks in
  Ok (mkSyncCom pks agg).

(** 125-149; [integer_sqrt] (external crate) is the floor of the square root *)
Definition get_base_reward_per_increment (s : BeaconState) : res N :=
  let! a := mul E (EFFECTIVE_BALANCE_INCREMENT E) (BASE_REWARD_FACTOR E) in
  let! t := get_total_active_balance E s in
  udiv a (N.sqrt t).

(** altair/epoch_processing.rs:22-48 *)
Definition get_base_reward (s : BeaconState) (index : N) : res N :=
  let! v := idx (validators s) index in
  let! increments := udiv (v_effective_balance v) (EFFECTIVE_BALANCE_INCREMENT E) in
  let! r := get_base_reward_per_increment s in
  mul E increments r.

(** 153-202 *)
Definition get_unslashed_participating_indices (s : BeaconState) (flag_index epoch : N) : res (list N) :=
  let! prev := get_previous_epoch E s in
  let! cur := get_current_epoch E s in
  if negb (prev =? epoch) && negb (cur =? epoch) then Err EInvalidEpoch
  else
    let part := if epoch =? cur then current_epoch_participation s else previous_epoch_participation s in
    rfilter (fun i => let! p := idx part i in
                      let! v := idx (validators s) i in
                      Ok (has_flag p flag_index && negb (v_slashed v)))
            (get_active_validator_indices s epoch).

(** 205-262 (altair, bellatrix, capella) and deneb/helpers.rs:23-84 (deneb, electra): the only difference is the bound on
    the delay for the target flag *)
Definition get_attestation_participation_flag_indices (f : Fork) (s : BeaconState) (data : AttestationData)
    (inclusion_delay : N) : res (list N) :=
  let! cur := get_current_epoch E s in
  let justified := if cp_epoch (ad_target data) =? cur then current_justified_checkpoint s
                   else previous_justified_checkpoint s in
  if negb (Checkpoint_eqb (ad_source data) justified) then Err EAttInvalidSource
  else
    let! tr := get_block_root E s (cp_epoch (ad_target data)) in
    let is_matching_target := bytes_eqb (cp_root (ad_target data)) tr in
    let! is_matching_head :=
      (if is_matching_target then
         let! hr := get_block_root_at_slot E s (ad_slot data) in Ok (bytes_eqb (ad_beacon_block_root data) hr)
       else Ok false) in
    let target_timely := if fork_le Deneb f then true else inclusion_delay <=? SLOTS_PER_EPOCH E in
    Ok ((if inclusion_delay <=? N.sqrt (SLOTS_PER_EPOCH E) then [TIMELY_SOURCE_FLAG_INDEX] else [])
        ++ (if is_matching_target && target_timely then [TIMELY_TARGET_FLAG_INDEX] else [])
        ++ (if (is_matching_head : bool) && (inclusion_delay =? MIN_ATTESTATION_INCLUSION_DELAY E)
            then [TIMELY_HEAD_FLAG_INDEX] else [])).

(** phase0/epoch_processing.rs:712-735, 737-760 *)
Definition get_finality_delay (s : BeaconState) : res N :=
  let! p := get_previous_epoch E s in sub E p (cp_epoch (finalized_checkpoint s)).
Definition is_in_inactivity_leak (s : BeaconState) : res bool :=
  let! d := get_finality_delay s in Ok (MIN_EPOCHS_TO_INACTIVITY_PENALTY E <? d).

(** [deltas[i] += x] *)
Definition bump (l : list N) (i x : N) : res (list N) :=
  let! a := idx l i in let! b := add E a x in Ok (updN l i b).

(** 265-314; one iteration of the loop 302-312 on (rewards, penalties) *)
Definition flag_delta_step (s : BeaconState) (flag_index weight : N) (participating : list N)
    (part_increments active_increments : N) (not_leaking : bool) (d : list N * list N) (i : N) : res (list N * list N) :=
  let! base := get_base_reward s i in
  if memN i participating then
    if not_leaking then
      let! a := mul E base weight in
      let! num := mul E a part_increments in
      let! den := mul E active_increments WEIGHT_DENOMINATOR in
      let! q := udiv num den in
      let! r := bump (fst d) i q in Ok (r, snd d)
    else Ok d
  else if negb (flag_index =? TIMELY_HEAD_FLAG_INDEX) then
    let! a := mul E base weight in
    let! q := udiv a WEIGHT_DENOMINATOR in
    let! p := bump (snd d) i q in Ok (fst d, p)
  else Ok d.
Definition get_flag_index_deltas (s : BeaconState) (flag_index weight : N) : res (list N * list N) :=
  let n := lenN (validators s) in
  let! prev := get_previous_epoch E s in
  let! participating := get_unslashed_participating_indices s flag_index prev in
  let! pb := get_total_balance E s participating in
  let! pi := udiv pb (EFFECTIVE_BALANCE_INCREMENT E) in
  let! ab := get_total_active_balance E s in
  let! ai := udiv ab (EFFECTIVE_BALANCE_INCREMENT E) in
  let! leak := is_in_inactivity_leak s in
  let! eligible := get_eligible_validator_indices E s in
  rfold (flag_delta_step s flag_index weight participating pi ai (negb leak)) eligible (repeatN 0 n, repeatN 0 n).

(** 316-358 (altair) and bellatrix/helpers.rs:13-59 (bellatrix on): only the quotient differs *)
Definition inactivity_quotient (f : Fork) : N :=
  match f with
  | Phase0 => INACTIVITY_PENALTY_QUOTIENT E
  | Altair => INACTIVITY_PENALTY_QUOTIENT_ALTAIR E
  | _ => INACTIVITY_PENALTY_QUOTIENT_BELLATRIX E
  end.
Definition get_inactivity_penalty_deltas_altair (f : Fork) (s : BeaconState) : res (list N * list N) :=
  let n := lenN (validators s) in
  let! prev := get_previous_epoch E s in
  let! target := get_unslashed_participating_indices s TIMELY_TARGET_FLAG_INDEX prev in
  let! eligible := get_eligible_validator_indices E s in
  let! p := rfold (fun p i =>
              if memN i target then Ok p
              else
                let! v := idx (validators s) i in
                let! sc := idx (inactivity_scores s) i in
                let! num := mul E (v_effective_balance v) sc in
                let! den := mul E (INACTIVITY_SCORE_BIAS E) (inactivity_quotient f) in
                let! q := udiv num den in
                bump p i q) eligible (repeatN 0 n) in
  Ok (repeatN 0 n, p).

(** bellatrix: the default header; the fields that bellatrix/capella/deneb headers lack keep the default *)
Definition default_payload_header : ExecutionPayloadHeader :=
  mkPayloadHeader zero32 (repeat 0 20) zero32 zero32 (repeatN 0 (BYTES_PER_LOGS_BLOOM E)) zero32 0 0 0 0 [] 0 zero32 zero32
    zero32 0 0 zero32 zero32.
Definition default_payload : ExecutionPayload :=
  mkPayload zero32 (repeat 0 20) zero32 zero32 (repeatN 0 (BYTES_PER_LOGS_BLOOM E)) zero32 0 0 0 0 [] 0 zero32 []
    [] 0 0 [] [].

(** bellatrix/helpers.rs:115-141 *)
Definition is_merge_transition_complete (s : BeaconState) : bool :=
  negb (ExecutionPayloadHeader_eqb (latest_execution_payload_header s) default_payload_header).

(** bellatrix/helpers.rs:243-273 *)
Definition compute_timestamp_at_slot (s : BeaconState) (sl : N) : res N :=
  let! d := ok_or (csub sl GENESIS_SLOT) EUnderflow in
  let! m := mul E d (SECONDS_PER_SLOT E) in
  add E (genesis_time s) m.

End WithEnv.

Lemma DepositReceipt_eq_dec (a b : DepositReceipt) : {a = b} + {a <> b}.
Proof. decide equality; auto using N.eq_dec, bytes_eq_dec. Defined.
Lemma ELW_eq_dec (a b : ExecutionLayerWithdrawalRequest) : {a = b} + {a <> b}.
Proof. decide equality; auto using N.eq_dec, bytes_eq_dec. Defined.
Lemma ExecutionPayload_eq_dec (a b : ExecutionPayload) : {a = b} + {a <> b}.
Proof.
  decide equality; auto using N.eq_dec, bytes_eq_dec; apply list_eq_dec;
    auto using bytes_eq_dec, Withdrawal_eq_dec, DepositReceipt_eq_dec, ELW_eq_dec.
Defined.
Definition ExecutionPayload_eqb (a b : ExecutionPayload) : bool := if ExecutionPayload_eq_dec a b then true else false.

(** bellatrix/helpers.rs:143-191, 193-241 *)
Definition is_merge_transition_block (E : Env) (s : BeaconState) (b : BeaconBlockBody) : bool :=
  negb (is_merge_transition_complete E s) && negb (ExecutionPayload_eqb (bb_execution_payload b) (default_payload E)).
Definition is_execution_enabled (E : Env) (s : BeaconState) (b : BeaconBlockBody) : bool :=
  is_merge_transition_block E s b || is_merge_transition_complete E s.
