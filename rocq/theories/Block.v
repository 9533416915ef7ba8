(** * Block: block processing of every fork

    The code has one hand-written function per fork in which it changes; the other forks use generated textual copies
    ([<fork>/spec/mod.rs]) that call that fork's callees.  The model has one definition with a fork parameter; the comment
    gives the hand-written originals.  P = phase0/block_processing.rs, A = altair/..., B = bellatrix/..., C = capella/...,
    D = deneb/..., L = electra/block_processing.rs.

    Each operation is split in the checks (a read-only function of the state) and the effect. *)
From Verif Require Export HelpersElectra.

(** [r.map_err(|_| e)] *)
Definition map_err {A} (r : res A) (e : error) : res A := match r with Err _ => Err e | _ => r end.
(** [r.is_err()] *)
Definition is_err_r {A} (r : res A) : res bool :=
  match r with Ok _ => Ok false | Err _ => Ok true | Panic => Panic | Diverge => Diverge end.

(** [for x in l { acc = body(acc, x)? }] *)
Fixpoint sfold {S A B} (body : B -> A -> St S B) (l : list A) (b : B) : St S B :=
  match l with
  | [] => sret b
  | x :: t => sbind (body b x) (fun b' => sfold body t b')
  end.

(** the last index holding a public key: [HashMap::from_iter] keeps the last entry (A 257-262) *)
Fixpoint last_position_pk (pk : bytes) (vs : list Validator) (i : N) (acc : option N) : option N :=
  match vs with
  | [] => acc
  | v :: t => last_position_pk pk t (i + 1) (if bytes_eqb (v_public_key v) pk then Some i else acc)
  end.

(** crypto/bls.rs:349-353: the point at infinity *)
Definition INFINITY_SIGNATURE : bytes := 192 :: repeat 0 95.

Section WithEnv.
Variable E : Env.

(** ** Slashings *)

(** P 34-107, the checks; returns the proposer index *)
Definition proposer_slashing_checks (op : ProposerSlashing) (s : BeaconState) : res N :=
  let h1 := sbh_message (ps_1 op) in
  let h2 := sbh_message (ps_2 op) in
  let! _ := require (bh_slot h1 =? bh_slot h2) EPSlotMismatch in
  let! _ := require (bh_proposer_index h1 =? bh_proposer_index h2) EPProposerMismatch in
  let! _ := require (negb (BeaconBlockHeader_eqb h1 h2)) EPHeadersAreEqual in
  let! proposer := getN (validators s) (bh_proposer_index h1) EPInvalidIndex in
  let! cur := get_current_epoch E s in
  let! _ := require (is_slashable_validator proposer cur) EPProposerIsNotSlashable in
  let! epoch := compute_epoch_at_slot E (bh_slot h1) in
  let! domain := get_domain E s DBeaconProposer (Some epoch) in
  let! _ := map_err (verify_signed_data E (OHeader h1) (sbh_signature (ps_1 op)) (v_public_key proposer) domain)
                    EPInvalidSignature in
  let! _ := map_err (verify_signed_data E (OHeader h2) (sbh_signature (ps_2 op)) (v_public_key proposer) domain)
                    EPInvalidSignature in
  Ok (bh_proposer_index h1).

Definition process_proposer_slashing (f : Fork) (op : ProposerSlashing) : St BeaconState unit :=
  let* i := rd (proposer_slashing_checks op) in
  slash_validator E f i None.

(** P 148-152: the sorted intersection of the two index sets *)
Definition sorted_intersection (l1 l2 : list N) : list N := isort (dedupN (filter (fun i => memN i l2) l1)).

(** P 135-152 *)
Definition attester_slashing_checks (op : AttesterSlashing) (s : BeaconState) : res (list N) :=
  let! _ := require (is_slashable_attestation_data (ia_data (as_1 op)) (ia_data (as_2 op))) EASNotSlashable in
  let! _ := is_valid_indexed_attestation E s (as_1 op) in
  let! _ := is_valid_indexed_attestation E s (as_2 op) in
  Ok (sorted_intersection (ia_attesting_indices (as_1 op)) (ia_attesting_indices (as_2 op))).

(** P 109-170 *)
Definition process_attester_slashing (f : Fork) (op : AttesterSlashing) : St BeaconState unit :=
  let* indices := rd (attester_slashing_checks op) in
  let* cur := rd (get_current_epoch E) in
  let* slashed_any := sfold (fun b i =>
        let* v := rd (fun s => idx (validators s) i) in
        if is_slashable_validator v cur then slash_validator E f i None ;; sret true else sret b) indices false in
  lift (require slashed_any EASNoSlashings).

(** ** Attestations *)

(** P 195-233, A 54-92, D 53-84, L 518-550: epochs and delay; returns whether the target epoch is the current one *)
Definition attestation_window (f : Fork) (data : AttestationData) (s : BeaconState) : res bool :=
  let! prev := get_previous_epoch E s in
  let! cur := get_current_epoch E s in
  let te := cp_epoch (ad_target data) in
  let! _ := require ((te =? prev) || (te =? cur)) EAttInvalidTargetEpoch in
  let! ae := compute_epoch_at_slot E (ad_slot data) in
  let! _ := require (te =? ae) EAttInvalidSlot in
  let! lo := add E (ad_slot data) (MIN_ATTESTATION_INCLUSION_DELAY E) in
  let! _ := (if fork_le Deneb f then require (lo <=? slot s) EAttNoDelay
             else
               let! hi := add E (ad_slot data) (SLOTS_PER_EPOCH E) in
               require ((lo <=? slot s) && (slot s <=? hi)) EAttNotTimely) in
  Ok (te =? cur).

(** P 235-251, A 94-110, D 86-99: committee index and bitfield length *)
Definition attestation_committee_checks (a : Attestation) (s : BeaconState) : res unit :=
  let data := at_data a in
  let! count := get_committee_count_per_slot E s (cp_epoch (ad_target data)) in
  let! _ := require (ad_index data <? count) EAttInvalidIndex in
  let! committee := get_beacon_committee E s (ad_slot data) (ad_index data) in
  require (lenN (at_aggregation_bits a) =? lenN committee) EAttBitfield.

(** L 552-580 *)
Definition attestation_committee_checks_electra (a : Attestation) (s : BeaconState) : res unit :=
  let data := at_data a in
  let! _ := require (ad_index data =? 0) EAttInvalidIndex in
  let! count := get_committee_count_per_slot E s (cp_epoch (ad_target data)) in
  let! participants := rfold (fun acc i =>
        let! _ := require (i <? count) EAttInvalidIndex in
        let! committee := get_beacon_committee E s (ad_slot data) i in
        Ok (acc + lenN committee)) (get_committee_indices (at_committee_bits a)) 0 in
  require (lenN (at_aggregation_bits a) =? participants) EAttBitfield.

(** P 172-292, the checks; returns (target is current, the pending attestation) *)
Definition attestation_checks_phase0 (a : Attestation) (s : BeaconState) : res (bool * PendingAttestation) :=
  let data := at_data a in
  let! is_current := attestation_window Phase0 data s in
  let! _ := attestation_committee_checks a s in
  let! ia := get_indexed_attestation E s a in
  let! _ := is_valid_indexed_attestation E s ia in
  let! delay := sub E (slot s) (ad_slot data) in
  let! proposer := get_beacon_proposer_index E s in
  let justified := if (is_current : bool) then current_justified_checkpoint s else previous_justified_checkpoint s in
  let! _ := require (Checkpoint_eqb (ad_source data) justified) EAttInvalidSource in
  Ok (is_current, mkPending (at_aggregation_bits a) data delay proposer).

Definition process_attestation_phase0 (a : Attestation) : St BeaconState unit :=
  let* r := rd (attestation_checks_phase0 a) in
  if (fst r : bool) then md (fun s => set_current_epoch_attestations (current_epoch_attestations s ++ [snd r]) s)
  else md (fun s => set_previous_epoch_attestations (previous_epoch_attestations s ++ [snd r]) s).

(** A 54-125, D 53-110, L 518-591, the checks; returns (target is current, flags, attesting indices) *)
Definition attestation_checks (f : Fork) (a : Attestation) (s : BeaconState) : res (bool * list N * list N) :=
  let data := at_data a in
  let! is_current := attestation_window f data s in
  let! _ := (match f with
             | Electra => attestation_committee_checks_electra a s
             | _ => attestation_committee_checks a s
             end) in
  let! delay := sub E (slot s) (ad_slot data) in
  let! flags := get_attestation_participation_flag_indices E f s data delay in
  let! ia := (match f with
              | Electra => get_indexed_attestation_electra E s a
              | _ => get_indexed_attestation E s a
              end) in
  let! _ := is_valid_indexed_attestation E s ia in
  let! attesting := (match f with
                     | Electra => get_attesting_indices_electra E s a
                     | _ => get_attesting_indices E s data (at_aggregation_bits a)
                     end) in
  Ok (is_current, flags, attesting).

Definition participation (is_current : bool) (s : BeaconState) : list N :=
  if is_current then current_epoch_participation s else previous_epoch_participation s.
Definition set_participation (is_current : bool) (l : list N) (s : BeaconState) : BeaconState :=
  if is_current then set_current_epoch_participation l s else set_previous_epoch_participation l s.

(** A 127-146, D 112-129, L 594-610: one validator, one flag *)
Definition attestation_flag_step (is_current : bool) (flags : list N) (index : N) (numerator : N) (fw : N * N)
    : St BeaconState N :=
  if memN (fst fw) flags then
    let* p := rd (fun s => idx (participation is_current s) index) in
    if has_flag p (fst fw) then sret numerator
    else
      md (fun s => set_participation is_current (updN (participation is_current s) index (add_flag p (fst fw))) s) ;;
      rd (fun s => let! b := get_base_reward E s index in
                   let! x := mul E b (snd fw) in
                   add E numerator x)
  else sret numerator.

(** A 31-153, D 26-136, L 483-618.  Simplification: the attesting indices come from a [HashSet]; the model visits them
    in committee order *)
Definition process_attestation_altair (f : Fork) (a : Attestation) : St BeaconState unit :=
  let* r := rd (attestation_checks f a) in
  let '(is_current, flags, attesting) := r in
  let* numerator := sfold (fun num i => sfold (attestation_flag_step is_current flags i) FLAG_WEIGHTS num) attesting 0 in
  let* reward := lift (udiv numerator ((WEIGHT_DENOMINATOR - PROPOSER_WEIGHT) * WEIGHT_DENOMINATOR / PROPOSER_WEIGHT)) in
  let* proposer := rd (get_beacon_proposer_index E) in
  increase_balance E proposer reward.

Definition process_attestation (f : Fork) (a : Attestation) : St BeaconState unit :=
  match f with
  | Phase0 => process_attestation_phase0 a
  | _ => process_attestation_altair f a
  end.

(** ** Deposits *)

(** P 294-315 *)
Definition get_validator_from_deposit (pk wc : bytes) (amount : N) : res Validator :=
  let! m := umod amount (EFFECTIVE_BALANCE_INCREMENT E) in
  let! r := sub E amount m in
  Ok (mkValidator pk wc (N.min r (MAX_EFFECTIVE_BALANCE E)) false
        FAR_FUTURE_EPOCH FAR_FUTURE_EPOCH FAR_FUTURE_EPOCH FAR_FUTURE_EPOCH).
(** L 744-758 *)
Definition get_validator_from_deposit_electra (pk wc : bytes) : Validator :=
  mkValidator pk wc 0 false FAR_FUTURE_EPOCH FAR_FUTURE_EPOCH FAR_FUTURE_EPOCH FAR_FUTURE_EPOCH.

(** P 317-349, A 155-190, L 701-742 *)
Definition add_validator_to_registry (f : Fork) (pk wc : bytes) (amount : N) : St BeaconState unit :=
  match f with
  | Electra =>
    md (fun s => set_pending_balance_deposits (pending_balance_deposits s ++ [mkPBD (lenN (validators s)) amount])
         (set_inactivity_scores (inactivity_scores s ++ [0])
         (set_current_epoch_participation (current_epoch_participation s ++ [0])
         (set_previous_epoch_participation (previous_epoch_participation s ++ [0])
         (set_balances (balances s ++ [0])
         (set_validators (validators s ++ [get_validator_from_deposit_electra pk wc]) s))))))
  | _ =>
    let* v := lift (get_validator_from_deposit pk wc amount) in
    md (fun s => set_balances (balances s ++ [amount]) (set_validators (validators s ++ [v]) s)) ;;
    swhen (fork_le Altair f)
      (md (fun s => set_inactivity_scores (inactivity_scores s ++ [0])
             (set_current_epoch_participation (current_epoch_participation s ++ [0])
             (set_previous_epoch_participation (previous_epoch_participation s ++ [0]) s))))
  end.

(** L 688-699; P 383-389 performs the same computation *)
Definition is_valid_deposit_signature (pk wc : bytes) (amount : N) (sg : bytes) : res unit :=
  let! domain := compute_domain E DDeposit None None in
  verify_signed_data E (ODepositMessage (mkDepMsg pk wc amount)) sg pk domain.

(** P 351-403 *)
Definition apply_deposit_phase0 (f : Fork) (pk wc : bytes) (amount : N) (sg : bytes) : St BeaconState unit :=
  let* o := rd (fun s => Ok (position_pk pk (validators s) 0)) in
  match o with
  | Some i => increase_balance E i amount
  | None =>
    let* domain := lift (compute_domain E DDeposit None None) in
    let* bad := lift (is_err_r (verify_signed_data E (ODepositMessage (mkDepMsg pk wc amount)) sg pk domain)) in
    if (bad : bool) then sret tt else add_validator_to_registry f pk wc amount
  end.

(** L 620-686 *)
Definition apply_deposit_electra (pk wc : bytes) (amount : N) (sg : bytes) : St BeaconState unit :=
  let* o := rd (fun s => Ok (position_pk pk (validators s) 0)) in
  match o with
  | Some i =>
    md (fun s => set_pending_balance_deposits (pending_balance_deposits s ++ [mkPBD i amount]) s) ;;
    lift (is_valid_deposit_signature pk wc amount sg) ;;
    let* v := rd (fun s => idx (validators s) i) in
    swhen (is_compounding_withdrawal_credential wc && has_eth1_withdrawal_credential v)
          (switch_to_compounding_validator E i)
  | None =>
    lift (is_valid_deposit_signature pk wc amount sg) ;;
    add_validator_to_registry Electra pk wc amount
  end.

Definition apply_deposit (f : Fork) (pk wc : bytes) (amount : N) (sg : bytes) : St BeaconState unit :=
  match f with
  | Electra => apply_deposit_electra pk wc amount sg
  | _ => apply_deposit_phase0 f pk wc amount sg
  end.

(** phase0/constants.rs: DEPOSIT_CONTRACT_TREE_DEPTH *)
Definition DEPOSIT_CONTRACT_TREE_DEPTH : N := 32.

(** P 405-446 *)
Definition process_deposit (f : Fork) (d : Deposit) : St BeaconState unit :=
  rd (fun s =>
    let! leaf := htr_r E (ODepositData (dep_data d)) in
    require (merkle_branch_ok E leaf (dep_proof d) (DEPOSIT_CONTRACT_TREE_DEPTH + 1) (eth1_deposit_index s)
               (e1_deposit_root (eth1_data s))) EDepInvalidProof) ;;
  let* i := rd (fun s => add E (eth1_deposit_index s) 1) in
  md (set_eth1_deposit_index i) ;;
  let dd := dep_data d in
  apply_deposit f (dd_public_key dd) (dd_withdrawal_credentials dd) (dd_amount dd) (dd_signature dd).

(** L 962-1006 *)
Definition process_deposit_receipt (r : DepositReceipt) : St BeaconState unit :=
  md (fun s => if deposit_receipts_start_index s =? UNSET_DEPOSIT_RECEIPTS_START_INDEX
               then set_deposit_receipts_start_index (dr_index r) s else s) ;;
  apply_deposit_electra (dr_public_key r) (dr_withdrawal_credentials r) (dr_amount r) (dr_signature r).

(** ** Voluntary exits: P 448-520, D 271-348, L 760-858 *)
Definition voluntary_exit_checks (f : Fork) (op : SignedVoluntaryExit) (s : BeaconState) : res N :=
  let e := sve_message op in
  let! v := getN (validators s) (ve_validator_index e) EVEInvalidIndex in
  let! cur := get_current_epoch E s in
  let! _ := require (is_active_validator v cur) EVEInactiveValidator in
  let! _ := require (v_exit_epoch v =? FAR_FUTURE_EPOCH) EVEValidatorAlreadyExited in
  let! _ := require (ve_epoch e <=? cur) EVEEarlyExit in
  let! min_time := add E (v_activation_eligibility_epoch v) (SHARD_COMMITTEE_PERIOD E) in
  let! _ := require (min_time <=? cur) EVEValidatorIsNotActiveForLongEnough in
  let! _ := (match f with
             | Electra =>
               let! p := get_pending_balance_to_withdraw E s (ve_validator_index e) in
               require (p =? 0) EVENonZeroPendingBalanceToWithdraw
             | _ => Ok tt
             end) in
  let! domain := (if fork_le Deneb f
                  then compute_domain E DVoluntaryExit (Some (CAPELLA_FORK_VERSION E)) (Some (genesis_validators_root s))
                  else get_domain E s DVoluntaryExit (Some (ve_epoch e))) in
  let! _ := map_err (verify_signed_data E (OVoluntaryExit e) (sve_signature op) (v_public_key v) domain)
                    EVEInvalidSignature in
  Ok (ve_validator_index e).

Definition process_voluntary_exit (f : Fork) (op : SignedVoluntaryExit) : St BeaconState unit :=
  let* i := rd (voluntary_exit_checks f op) in
  initiate_exit E f i.

(** ** Header, randao, eth1 data *)

(** P 522-601 *)
Definition process_block_header (f : Fork) (b : BeaconBlock) : St BeaconState unit :=
  let* hdr := rd (fun s =>
    let! _ := require (bk_slot b =? slot s) EHdrStateSlotMismatch in
    let! _ := require (bh_slot (latest_block_header s) <? bk_slot b) EHdrOlderThanLatestBlockHeader in
    let! proposer := get_beacon_proposer_index E s in
    let! _ := require (bk_proposer_index b =? proposer) EHdrProposerIndexMismatch in
    let! expected := htr_r E (OHeader (latest_block_header s)) in
    let! _ := require (bytes_eqb (bk_parent_root b) expected) EHdrParentBlockRootMismatch in
    let! body_root := htr_r E (OBody f (bk_body b)) in
    Ok (mkHeader (bk_slot b) (bk_proposer_index b) (bk_parent_root b) zero32 body_root)) in
  md (set_latest_block_header hdr) ;;
  rd (fun s =>
    let! v := idx (validators s) (bk_proposer_index b) in
    require (negb (v_slashed v)) EHdrProposerSlashed).

(** P 608-657, with [xor] 603-606 *)
Definition process_randao (b : BeaconBlockBody) : St BeaconState unit :=
  let* r := rd (fun s =>
    let! proposer := get_beacon_proposer_index E s in
    let! v := idx (validators s) proposer in
    let! epoch := get_current_epoch E s in
    let! domain := get_domain E s DRandao (Some epoch) in
    let! _ := map_err (verify_signed_data E (OU64 epoch) (bb_randao_reveal b) (v_public_key v) domain) ERandao in
    let! mix := get_randao_mix E s epoch in
    let! i := umod epoch (EPOCHS_PER_HISTORICAL_VECTOR E) in
    Ok (i, xorB mix (hash E (bb_randao_reveal b)))) in
  md (fun s => set_randao_mixes (updN (randao_mixes s) (fst r) (snd r)) s).

(** P 659-702 *)
Definition count_votes (d : Eth1Data) (l : list Eth1Data) : N := lenN (filter (fun v => Eth1Data_eqb v d) l).
Definition process_eth1_data (b : BeaconBlockBody) : St BeaconState unit :=
  md (fun s => set_eth1_data_votes (eth1_data_votes s ++ [bb_eth1_data b]) s) ;;
  let* adopt := rd (fun s =>
    let! v2 := mul E (count_votes (bb_eth1_data b) (eth1_data_votes s)) 2 in
    let! period := mul E (EPOCHS_PER_ETH1_VOTING_PERIOD E) (SLOTS_PER_EPOCH E) in
    Ok (period <? v2)) in
  swhen adopt (md (set_eth1_data (bb_eth1_data b))).

(** ** Sync aggregate: A 192-280 *)

(** crypto/bls.rs:150-160 *)
Definition eth_fast_aggregate_verify (pks : list bytes) (msg sg : bytes) : bool :=
  match pks with
  | [] => bytes_eqb sg INFINITY_SIGNATURE || fast_aggregate_verify_ok E pks msg sg
  | _ => fast_aggregate_verify_ok E pks msg sg
  end.

(** A 216-243: the checks *)
Definition sync_aggregate_checks (sa : SyncAggregate) (s : BeaconState) : res unit :=
  let pks := map snd (filter (fun p => fst p) (combine (sa_bits sa) (sc_public_keys (current_sync_committee s)))) in
  let! previous_slot := sub E (N.max (slot s) 1) 1 in
  let! epoch := compute_epoch_at_slot E previous_slot in
  let! domain := get_domain E s DSyncCommittee (Some epoch) in
  let! root := get_block_root_at_slot E s previous_slot in
  let! signing_root := compute_signing_root E (OBytes32 root) domain in
  require (eth_fast_aggregate_verify pks signing_root (sa_signature sa)) ESyncInvalidSignature.

(** A 246-254: (participant reward, proposer reward) *)
Definition sync_rewards (s : BeaconState) : res (N * N) :=
  let! total := get_total_active_balance E s in
  let! increments := udiv total (EFFECTIVE_BALANCE_INCREMENT E) in
  let! per_inc := get_base_reward_per_increment E s in
  let! total_base := mul E per_inc increments in
  let! x := mul E total_base SYNC_REWARD_WEIGHT in
  let! y := udiv x WEIGHT_DENOMINATOR in
  let! max_rewards := udiv y (SLOTS_PER_EPOCH E) in
  let! participant := udiv max_rewards (SYNC_COMMITTEE_SIZE E) in
  let! z := mul E participant PROPOSER_WEIGHT in
  let! proposer := udiv z (WEIGHT_DENOMINATOR - PROPOSER_WEIGHT) in
  Ok (participant, proposer).

(** A 257-267 *)
Definition sync_indices (s : BeaconState) : res (list N) :=
  rmap (fun pk => expect (last_position_pk pk (validators s) 0 None)) (sc_public_keys (current_sync_committee s)).

(** A 268-277 *)
Definition sync_step (participant proposer : N) (p : N * bool) : St BeaconState unit :=
  if snd p then
    increase_balance E (fst p) participant ;;
    let* i := rd (get_beacon_proposer_index E) in
    increase_balance E i proposer
  else decrease_balance E (fst p) participant.

Definition process_sync_aggregate (sa : SyncAggregate) : St BeaconState unit :=
  rd (sync_aggregate_checks sa) ;;
  let* r := rd sync_rewards in
  let* indices := rd sync_indices in
  sfor (combine indices (sa_bits sa)) (sync_step (fst r) (snd r)).

(** ** Execution payload: B 14-118, C 166-275, D 138-269, L 223-371 *)
Definition payload_request (f : Fork) (b : BeaconBlockBody) (s : BeaconState) : PayloadRequest :=
  if fork_le Deneb f
  then mkPayloadRequest f (bb_execution_payload b) (map (kzg_commitment_to_versioned_hash E) (bb_blob_kzg_commitments b))
         (bh_parent_root (latest_block_header s))
  else mkPayloadRequest f (bb_execution_payload b) [] [].

Definition payload_checks (f : Fork) (b : BeaconBlockBody) (s : BeaconState) : res unit :=
  let p := bb_execution_payload b in
  let! _ := require ((fork_num f <=? fork_num Bellatrix) && negb (is_merge_transition_complete E s)
                     || bytes_eqb (ep_parent_hash p) (eph_block_hash (latest_execution_payload_header s)))
                    EPayInvalidParentHash in
  let! epoch := get_current_epoch E s in
  let! mix := get_randao_mix E s epoch in
  let! _ := require (bytes_eqb (ep_prev_randao p) mix) EPayInvalidPrevRandao in
  let! t := compute_timestamp_at_slot E s (slot s) in
  let! _ := require (ep_timestamp p =? t) EPayInvalidTimestamp in
  let! _ := require (negb (fork_le Deneb f) || (lenN (bb_blob_kzg_commitments b) <=? MAX_BLOBS_PER_BLOCK E))
                    EPayInvalidBlobCommitments in
  require (engine_ok E (payload_request f b s)) EExecutionEngine.

(** the header stored by each fork; the fields a fork's header lacks keep their default *)
Definition payload_to_header (f : Fork) (p : ExecutionPayload) : res ExecutionPayloadHeader :=
  let! tr := htr_r E (OTransactions (ep_transactions p)) in
  let! wr := (if fork_le Capella f then htr_r E (OWithdrawals (ep_withdrawals p)) else Ok zero32) in
  let! dr := (if fork_le Electra f then htr_r E (ODepositReceipts (ep_deposit_receipts p)) else Ok zero32) in
  let! rr := (if fork_le Electra f then htr_r E (OWithdrawalRequests (ep_withdrawal_requests p)) else Ok zero32) in
  Ok (mkPayloadHeader (ep_parent_hash p) (ep_fee_recipient p) (ep_state_root p) (ep_receipts_root p) (ep_logs_bloom p)
        (ep_prev_randao p) (ep_block_number p) (ep_gas_limit p) (ep_gas_used p) (ep_timestamp p) (ep_extra_data p)
        (ep_base_fee_per_gas p) (ep_block_hash p) tr wr
        (if fork_le Deneb f then ep_blob_gas_used p else 0) (if fork_le Deneb f then ep_excess_blob_gas p else 0) dr rr).

Definition process_execution_payload (f : Fork) (b : BeaconBlockBody) : St BeaconState unit :=
  rd (payload_checks f b) ;;
  let* h := lift (payload_to_header f (bb_execution_payload b)) in
  md (set_latest_execution_payload_header h).

(** ** Withdrawals *)

(** C 348-411 and L 103-139 (the sweep part): [n] iterations of the loop from validator [vi], next withdrawal index [wi] *)
Definition sweep_amount (f : Fork) (v : Validator) (balance epoch : N) : res (option N) :=
  match f with
  | Electra =>
    if is_fully_withdrawable_validator_electra v balance epoch then Ok (Some balance)
    else if is_partially_withdrawable_validator_electra E v balance
         then let! a := sub E balance (get_validator_max_effective_balance E v) in Ok (Some a)
         else Ok None
  | _ =>
    if is_fully_withdrawable_validator v balance epoch then Ok (Some balance)
    else if is_partially_withdrawable_validator E v balance
         then let! a := sub E balance (MAX_EFFECTIVE_BALANCE E) in Ok (Some a)
         else Ok None
  end.

Fixpoint sweep (f : Fork) (n : nat) (s : BeaconState) (epoch wi vi : N) (acc : list Withdrawal) : res (list Withdrawal) :=
  match n with
  | O => Ok acc
  | S n' =>
    let! v := idx (validators s) vi in
    let! balance := idx (balances s) vi in
    let! o := sweep_amount f v balance epoch in
    let! r := (match o with
               | Some amount => let! wi' := add E wi 1 in Ok (wi', acc ++ [mkWithdrawal wi vi (cred_address v) amount])
               | None => Ok (wi, acc)
               end) in
    if lenN (snd r) =? MAX_WITHDRAWALS_PER_PAYLOAD E then Ok (snd r)
    else
      let! vi1 := add E vi 1 in
      let! vi' := umod vi1 (lenN (validators s)) in
      sweep f n' s epoch (fst r) vi' (snd r)
  end.

Definition sweep_bound (s : BeaconState) : N := N.min (lenN (validators s)) (MAX_VALIDATORS_PER_WITHDRAWALS_SWEEP E).

(** C 348-411 *)
Definition get_expected_withdrawals_capella (s : BeaconState) : res (list Withdrawal) :=
  let! epoch := get_current_epoch E s in
  sweep Capella (N.to_nat (sweep_bound s)) s epoch (next_withdrawal_index s) (next_withdrawal_validator_index s) [].

(** L 71-101: the pending partial withdrawals *)
Fixpoint partials (s : BeaconState) (epoch vi : N) (l : list PendingPartialWithdrawal) (wi : N) (acc : list Withdrawal)
    : res (N * list Withdrawal) :=
  match l with
  | [] => Ok (wi, acc)
  | w :: t =>
    if (epoch <? ppw_withdrawable_epoch w) || (lenN acc =? MAX_PENDING_PARTIALS_PER_WITHDRAWALS_SWEEP E) then Ok (wi, acc)
    else
      let! v := idx (validators s) (ppw_index w) in
      let! balance := idx (balances s) (ppw_index w) in
      if (v_exit_epoch v =? FAR_FUTURE_EPOCH) && (MIN_ACTIVATION_BALANCE E <? v_effective_balance v)
         && (MIN_ACTIVATION_BALANCE E <? balance) then
        let! ex := sub E balance (MIN_ACTIVATION_BALANCE E) in
        let! wi' := add E wi 1 in
        partials s epoch vi t wi' (acc ++ [mkWithdrawal wi vi (cred_address v) (N.min ex (ppw_amount w))])
      else partials s epoch vi t wi acc
  end.

(** L 33-139: (withdrawals, partial_withdrawals_count) *)
Definition get_expected_withdrawals_electra (s : BeaconState) : res (list Withdrawal * N) :=
  let! epoch := get_current_epoch E s in
  let vi := next_withdrawal_validator_index s in
  let! p := partials s epoch vi (pending_partial_withdrawals s) (next_withdrawal_index s) [] in
  let! ws := sweep Electra (N.to_nat (sweep_bound s)) s epoch (fst p) vi (snd p) in
  Ok (ws, lenN (snd p)).

Definition get_expected_withdrawals (f : Fork) (s : BeaconState) : res (list Withdrawal * N) :=
  match f with
  | Electra => get_expected_withdrawals_electra s
  | _ => let! ws := get_expected_withdrawals_capella s in Ok (ws, 0)
  end.

Definition withdrawals_eqb (a b : list Withdrawal) : bool := if list_eq_dec Withdrawal_eq_dec a b then true else false.

Definition last_opt {A} (l : list A) : option A :=
  match l with [] => None | x :: t => Some (last t x) end.

(** C 277-346, L 141-221 *)
Definition withdrawals_checks (f : Fork) (p : ExecutionPayload) (s : BeaconState) : res (list Withdrawal * N) :=
  let! e := get_expected_withdrawals f s in
  let! _ := require (withdrawals_eqb (ep_withdrawals p) (fst e)) EWithdrawalsIncorrect in
  Ok e.

Definition process_withdrawals (f : Fork) (p : ExecutionPayload) : St BeaconState unit :=
  let* e := rd (withdrawals_checks f p) in
  let ws := fst e in
  sfor (ep_withdrawals p) (fun w => decrease_balance E (w_validator_index w) (w_amount w)) ;;
  swhen (fork_le Electra f)
    (rd (fun s => rassert (snd e <=? lenN (pending_partial_withdrawals s))) ;;
     md (fun s => set_pending_partial_withdrawals (skipN (snd e) (pending_partial_withdrawals s)) s)) ;;
  match last_opt ws with
  | Some w => let* i := lift (add E (w_index w) 1) in md (set_next_withdrawal_index i)
  | None => sret tt
  end ;;
  if lenN ws =? MAX_WITHDRAWALS_PER_PAYLOAD E then
    match last_opt ws with
    | Some w =>
      let* i1 := lift (add E (if fork_le Electra f then w_index w else w_validator_index w) 1) in
      let* i := rd (fun s => umod i1 (lenN (validators s))) in
      md (set_next_withdrawal_validator_index i)
    | None => if fork_le Electra f then sret tt else lift Panic
    end
  else
    let* i := rd (fun s =>
      let! a := add E (next_withdrawal_validator_index s) (MAX_VALIDATORS_PER_WITHDRAWALS_SWEEP E) in
      umod a (lenN (validators s))) in
    md (set_next_withdrawal_validator_index i).

(** ** BLS to execution changes: C 23-87 *)
Definition bls_change_checks (op : SignedBlsToExecutionChange) (s : BeaconState) : res N :=
  let c := sbc_message op in
  let! _ := require (bc_validator_index c <? lenN (validators s)) EBlsChangeIndexOutOfBounds in
  let! v := idx (validators s) (bc_validator_index c) in
  let! _ := require (cred_prefix v =? BLS_WITHDRAWAL_PREFIX) EBlsChangePrefix in
  let! _ := require (bytes_eqb (skipn 1 (v_withdrawal_credentials v)) (skipn 1 (hash E (bc_from_bls_public_key c))))
                    EBlsChangePublicKeyMismatch in
  let! domain := compute_domain E DBlsToExecutionChange None (Some (genesis_validators_root s)) in
  let! _ := verify_signed_data E (OBlsChange c) (sbc_signature op) (bc_from_bls_public_key c) domain in
  Ok (bc_validator_index c).
Definition process_bls_to_execution_change (op : SignedBlsToExecutionChange) : St BeaconState unit :=
  let* i := rd (bls_change_checks op) in
  mod_validator i (set_v_withdrawal_credentials
     (ETH1_ADDRESS_WITHDRAWAL_PREFIX :: repeat 0 11 ++ bc_to_execution_address (sbc_message op))).

(** ** Execution-layer withdrawal requests: L 860-960 *)
Inductive WithdrawalAction : Type := WNothing | WExit (index : N) | WPartial (index amount : N).

(** L 893-949: the decision *)
Definition withdrawal_request_action (r : ExecutionLayerWithdrawalRequest) (s : BeaconState) : res WithdrawalAction :=
  let full := elw_amount r =? FULL_EXIT_REQUEST_AMOUNT in
  if (lenN (pending_partial_withdrawals s) =? PENDING_PARTIAL_WITHDRAWALS_LIMIT E) && negb full then Ok WNothing
  else
    match position_pk (elw_validator_public_key r) (validators s) 0 with
    | None => Ok WNothing
    | Some i =>
      let! v := idx (validators s) i in
      if negb (has_execution_withdrawal_credential v && bytes_eqb (cred_address v) (elw_source_address r)) then Ok WNothing
      else
        let! cur := get_current_epoch E s in
        if negb (is_active_validator v cur) then Ok WNothing
        else if negb (v_exit_epoch v =? FAR_FUTURE_EPOCH) then Ok WNothing
        else
          let! min_time := add E (v_activation_epoch v) (SHARD_COMMITTEE_PERIOD E) in
          if cur <? min_time then Ok WNothing
          else
            let! pending := get_pending_balance_to_withdraw E s i in
            if full then Ok (if pending =? 0 then WExit i else WNothing)
            else
              let! balance := idx (balances s) i in
              let! floor := add E (MIN_ACTIVATION_BALANCE E) pending in
              if has_compounding_withdrawal_credential v && (MIN_ACTIVATION_BALANCE E <=? v_effective_balance v)
                 && (floor <? balance) then
                let! a := sub E balance (MIN_ACTIVATION_BALANCE E) in
                let! b := sub E a pending in
                Ok (WPartial i (N.min b (elw_amount r)))
              else Ok WNothing
    end.

Definition process_execution_layer_withdrawal_request (r : ExecutionLayerWithdrawalRequest) : St BeaconState unit :=
  let* a := rd (withdrawal_request_action r) in
  match a with
  | WNothing => sret tt
  | WExit i => initiate_validator_exit_electra E i
  | WPartial i amount =>
    let* q := compute_exit_epoch_and_update_churn E amount in
    let* w := lift (add E q (MIN_VALIDATOR_WITHDRAWABILITY_DELAY E)) in
    md (fun s => set_pending_partial_withdrawals (pending_partial_withdrawals s ++ [mkPPW i amount w]) s)
  end.

(** ** Consolidations: L 1008-1152 *)
Definition consolidation_checks (op : SignedConsolidation) (s : BeaconState) : res (Validator * Validator) :=
  let c := scn_message op in
  let! _ := require (lenN (pending_consolidations s) <? PENDING_CONSOLIDATIONS_LIMIT E) ECQueueFull in
  let! limit := get_consolidation_churn_limit E s in
  let! _ := require (MIN_ACTIVATION_BALANCE E <? limit) ECInsufficientChurn in
  let! _ := require (negb (cn_source_index c =? cn_target_index c)) ECEqualIndices in
  let! src := getN (validators s) (cn_source_index c) ECInvalidIndex in
  let! tgt := getN (validators s) (cn_target_index c) ECInvalidIndex in
  let! cur := get_current_epoch E s in
  let! _ := require (is_active_validator src cur) ECInactiveValidator in
  let! _ := require (is_active_validator tgt cur) ECInactiveValidator in
  let! _ := require (v_exit_epoch src =? FAR_FUTURE_EPOCH) ECExitInitiated in
  let! _ := require (v_exit_epoch tgt =? FAR_FUTURE_EPOCH) ECExitInitiated in
  let! _ := require (cn_epoch c <=? cur) ECEarlyConsolidation in
  let! _ := require (has_execution_withdrawal_credential src) ECMissingCredentials in
  let! _ := require (has_execution_withdrawal_credential tgt) ECMissingCredentials in
  let! _ := require (bytes_eqb (cred_address src) (cred_address tgt)) ECCredentialsMismatch in
  let! domain := compute_domain E DConsolidation None (Some (genesis_validators_root s)) in
  let! root := compute_signing_root E (OConsolidation c) domain in
  let! _ := require (fast_aggregate_verify_ok E [v_public_key src; v_public_key tgt] root (scn_signature op)) EBls in
  Ok (src, tgt).

Definition process_consolidation (op : SignedConsolidation) : St BeaconState unit :=
  let c := scn_message op in
  let* r := rd (consolidation_checks op) in
  let src := fst r in
  let* q := compute_consolidation_epoch_and_update_churn E (v_effective_balance src) in
  mod_validator (cn_source_index c) (set_v_exit_epoch q) ;;
  let* w := lift (add E (v_exit_epoch src) (MIN_VALIDATOR_WITHDRAWABILITY_DELAY E)) in
  mod_validator (cn_source_index c) (set_v_withdrawable_epoch w) ;;
  md (fun s => set_pending_consolidations (pending_consolidations s ++ [mkPC (cn_source_index c) (cn_target_index c)]) s).

(** ** Operations and blocks *)

(** P 739-751 and its copies; L 440-456 *)
Definition deposit_count_check (f : Fork) (b : BeaconBlockBody) (s : BeaconState) : res unit :=
  match f with
  | Electra =>
    let limit := N.min (e1_deposit_count (eth1_data s)) (deposit_receipts_start_index s) in
    if eth1_deposit_index s <? limit then
      let! d := sub E limit (eth1_deposit_index s) in
      let expected := N.min (MAX_DEPOSITS E) d in
      if negb (lenN (bb_deposits b) =? expected) then Err EDepIncorrectCount
      else require (lenN (bb_deposits b) =? 0) EDepIncorrectCount
    else Ok tt
  | _ =>
    let! d := sub E (e1_deposit_count (eth1_data s)) (eth1_deposit_index s) in
    require (lenN (bb_deposits b) =? N.min (MAX_DEPOSITS E) d) EDepIncorrectCount
  end.

(** P 704-763, C 89-164, L 373-481 *)
Definition process_operations (f : Fork) (b : BeaconBlockBody) : St BeaconState unit :=
  rd (deposit_count_check f b) ;;
  sfor (bb_proposer_slashings b) (process_proposer_slashing f) ;;
  sfor (bb_attester_slashings b) (process_attester_slashing f) ;;
  sfor (bb_attestations b) (process_attestation f) ;;
  sfor (bb_deposits b) (process_deposit f) ;;
  sfor (bb_voluntary_exits b) (process_voluntary_exit f) ;;
  swhen (fork_le Capella f) (sfor (bb_bls_to_execution_changes b) process_bls_to_execution_change) ;;
  swhen (fork_le Electra f)
    (sfor (ep_withdrawal_requests (bb_execution_payload b)) process_execution_layer_withdrawal_request ;;
     sfor (ep_deposit_receipts (bb_execution_payload b)) process_deposit_receipt ;;
     sfor (bb_consolidations b) process_consolidation).

(** P 765-805; A 282-324; B 120-175; C 413-471; D 350-410 (and its electra copy) *)
Definition process_block (f : Fork) (b : BeaconBlock) : St BeaconState unit :=
  let body := bk_body b in
  process_block_header f b ;;
  (match f with
   | Phase0 | Altair => sret tt
   | Bellatrix =>
     let* en := rd (fun s => Ok (is_execution_enabled E s body)) in
     swhen en (process_execution_payload f body)
   | _ =>
     process_withdrawals f (bb_execution_payload body) ;;
     process_execution_payload f body
   end) ;;
  process_randao body ;;
  process_eth1_data body ;;
  process_operations f body ;;
  swhen (fork_le Altair f) (process_sync_aggregate (bb_sync_aggregate body)).

End WithEnv.
