(** * Helpers: phase0/helpers.rs and signing.rs

    All line numbers refer to ethereum-consensus/src/phase0/helpers.rs unless another file is named.  The copies in
    altair/spec, bellatrix/spec, capella/spec, deneb/spec (and electra/spec) are textually identical.

    Indices ([ValidatorIndex], [usize]) and [u64] are both [N] (64-bit target: the [as] casts between them are the
    identity). *)
From Verif Require Export Env.

(** 23-25 *)
Definition is_active_validator (v : Validator) (epoch : N) : bool :=
  (v_activation_epoch v <=? epoch) && (epoch <? v_exit_epoch v).

(** 58-62 *)
Definition is_slashable_validator (v : Validator) (epoch : N) : bool :=
  negb (v_slashed v) && (v_activation_epoch v <=? epoch) && (epoch <? v_withdrawable_epoch v).

(** 64-69 *)
Definition is_slashable_attestation_data (d1 d2 : AttestationData) : bool :=
  let double_vote := negb (AttestationData_eqb d1 d2) && (cp_epoch (ad_target d1) =? cp_epoch (ad_target d2)) in
  let surround_vote := (cp_epoch (ad_source d1) <? cp_epoch (ad_source d2))
                       && (cp_epoch (ad_target d2) <? cp_epoch (ad_target d1)) in
  double_vote || surround_vote.

(** 32-56 *)
Definition is_eligible_for_activation (s : BeaconState) (v : Validator) : bool :=
  (v_activation_eligibility_epoch v <=? cp_epoch (finalized_checkpoint s))
  && (v_activation_epoch v =? FAR_FUTURE_EPOCH).

(** domains.rs:19-31 [DomainType::as_bytes]; the discriminants are the declaration order *)
Definition domain_num (d : DomainType) : N :=
  match d with
  | DBeaconProposer => 0 | DBeaconAttester => 1 | DRandao => 2 | DDeposit => 3 | DVoluntaryExit => 4
  | DSelectionProof => 5 | DAggregateAndProof => 6 | DSyncCommittee => 7 | DSyncCommitteeSelectionProof => 8
  | DContributionAndProof => 9 | DBlsToExecutionChange => 10 | DConsolidation => 11
  | DApplicationMask => 12 | DApplicationBuilder => 13
  end.
Definition domain_bytes (d : DomainType) : bytes :=
  match d with
  | DApplicationMask | DApplicationBuilder => [0; 0; 0; 1]
  | _ => to_le 4 (domain_num d)
  end.

(** [x[..n].try_into().unwrap()] / [copy_from_slice(&x[..n])]: panics when [x] is shorter than [n] *)
Definition slice_to (n : N) (b : bytes) : res bytes :=
  if n <=? lenN b then Ok (firstN n b) else Panic.

Section WithEnv.
Variable E : Env.

(** 27-30 *)
Definition is_eligible_for_activation_queue (v : Validator) : bool :=
  (v_activation_eligibility_epoch v =? FAR_FUTURE_EPOCH) && (v_effective_balance v =? MAX_EFFECTIVE_BALANCE E).

(** signing.rs:14-22 *)
Definition compute_signing_root (o : SszObj) (domain : bytes) : res Root :=
  let! object_root := htr_r E o in
  htr_r E (OSigningData object_root domain).

(** signing.rs:33-41 *)
Definition verify_signed_data (o : SszObj) (signature public_key domain : bytes) : res unit :=
  let! signing_root := compute_signing_root o domain in
  verify_sig E public_key signing_root signature.

(** 485-487 *)
Definition compute_epoch_at_slot (sl : N) : res N := udiv sl (SLOTS_PER_EPOCH E).
(** 489-491 *)
Definition compute_start_slot_at_epoch (epoch : N) : res N := mul E epoch (SLOTS_PER_EPOCH E).
(** 493-495 *)
Definition compute_activation_exit_epoch (epoch : N) : res N :=
  let! e1 := add E epoch 1 in add E e1 (MAX_SEED_LOOKAHEAD E).

(** 224-247 *)
Definition get_current_epoch (s : BeaconState) : res N := compute_epoch_at_slot (slot s).

(** 522-529 *)
Definition compute_fork_data_root (current_version : bytes) (gvr : Root) : res Root :=
  htr_r E (OForkData current_version gvr).

(** 497-504 *)
Definition compute_fork_digest (current_version : bytes) (gvr : Root) : res bytes :=
  let! r := compute_fork_data_root current_version gvr in slice_to 4 r.

(** 506-520 *)
Definition compute_domain (d : DomainType) (fork_version : option bytes) (gvr : option Root) : res bytes :=
  let v := match fork_version with Some v => v | None => GENESIS_FORK_VERSION E end in
  let g := match gvr with Some g => g | None => zero32 end in
  let! r := compute_fork_data_root v g in
  let! r28 := slice_to 28 r in
  Ok (domain_bytes d ++ r28).

(** 190-222 *)
Definition get_domain (s : BeaconState) (d : DomainType) (epoch : option N) : res bytes :=
  let! e := match epoch with Some e => Ok e | None => get_current_epoch s end in
  let v := if e <? fk_epoch (fork s) then fk_previous_version (fork s) else fk_current_version (fork s) in
  compute_domain d (Some v) (Some (genesis_validators_root s)).

(** 531-559 *)
Definition get_previous_epoch (s : BeaconState) : res N :=
  let! e := get_current_epoch s in
  if e =? GENESIS_EPOCH then Ok GENESIS_EPOCH else sub E e 1.

(** 588-618; the error payload [state.slot - 1], [state.slot + SLOTS_PER_HISTORICAL_ROOT] is evaluated, so it can panic *)
Definition get_block_root_at_slot (s : BeaconState) (sl : N) : res Root :=
  let! out := (if slot s <=? sl then Ok true
               else let! u := add E sl (SLOTS_PER_HISTORICAL_ROOT E) in Ok (u <? slot s)) in
  if (out : bool) then
    let! _ := sub E (slot s) 1 in
    let! _ := add E (slot s) (SLOTS_PER_HISTORICAL_ROOT E) in
    Err ESlotOutOfRange
  else
    let! i := umod sl (SLOTS_PER_HISTORICAL_ROOT E) in
    idx (block_roots s) i.

(** 561-586 *)
Definition get_block_root (s : BeaconState) (epoch : N) : res Root :=
  let! sl := compute_start_slot_at_epoch epoch in get_block_root_at_slot s sl.

(** 620-644 *)
Definition get_randao_mix (s : BeaconState) (epoch : N) : res bytes :=
  let! i := umod epoch (EPOCHS_PER_HISTORICAL_VECTOR E) in idx (randao_mixes s) i.

(** 646-676 *)
Fixpoint active_from (vs : list Validator) (i epoch : N) : list N :=
  match vs with
  | [] => []
  | v :: t => if is_active_validator v epoch then i :: active_from t (i + 1) epoch else active_from t (i + 1) epoch
  end.
Definition get_active_validator_indices (s : BeaconState) (epoch : N) : list N := active_from (validators s) 0 epoch.

(** 678-706 *)
Definition get_validator_churn_limit (s : BeaconState) : res N :=
  let! e := get_current_epoch s in
  let! q := udiv (lenN (get_active_validator_indices s e)) (CHURN_LIMIT_QUOTIENT E) in
  Ok (N.max (MIN_PER_EPOCH_CHURN_LIMIT E) q).

(** 708-739 *)
Definition get_seed (s : BeaconState) (epoch : N) (d : DomainType) : res bytes :=
  let! a := sub E (EPOCHS_PER_HISTORICAL_VECTOR E) (MIN_SEED_LOOKAHEAD E) in
  let! b := add E epoch a in
  let! mix_epoch := sub E b 1 in
  let! mix := get_randao_mix s mix_epoch in
  Ok (hash E (domain_bytes d ++ to_le 8 epoch ++ mix)).

(** 741-773 *)
Definition get_committee_count_per_slot (s : BeaconState) (epoch : N) : res N :=
  let! a := udiv (lenN (get_active_validator_indices s epoch)) (SLOTS_PER_EPOCH E) in
  let! b := udiv a (TARGET_COMMITTEE_SIZE E) in
  Ok (N.max 1 (N.min (MAX_COMMITTEES_PER_SLOT E) b)).

(** ** Shuffling *)

(** body of the loop 263-280.  [current_round as u8] truncates, [(position / 256) as u32] truncates. *)
Definition shuffle_pivot (seed : bytes) (round index_count : N) : res N :=
  let! pb := slice_to 8 (hash E (seed ++ [round mod 256])) in
  umod (of_le pb) index_count.
Definition shuffle_source (seed : bytes) (round pos : N) : bytes :=
  hash E (seed ++ [round mod 256] ++ to_le 4 ((pos / 256) mod 2 ^ 32)).
Definition shuffle_bit (seed : bytes) (round pos : N) : res bool :=
  let! byte := idx (shuffle_source seed round pos) ((pos mod 256) / 8) in
  Ok (negb (N.shiftr byte (pos mod 8) mod 2 =? 0)).
Definition shuffle_round (seed : bytes) (index_count : N) (index round : N) : res N :=
  let! pivot := shuffle_pivot seed round index_count in
  let! a := add E pivot index_count in
  let! b := sub E a index in
  let! flip := umod b index_count in
  let position := N.max index flip in
  let! bit := shuffle_bit seed round position in
  Ok (if (bit : bool) then flip else index).

(** 249-283 *)
Definition compute_shuffled_index (index index_count : N) (seed : bytes) : res N :=
  if index_count <=? index then Err EInvalidShufflingIndex
  else rfold (shuffle_round seed index_count) (rangeN (SHUFFLE_ROUND_COUNT E)) index.

(** [slice::swap(i, j)] *)
Definition swapN (l : list N) (i j : N) : res (list N) :=
  let! a := idx l i in
  let! b := idx l j in
  Ok (updN (updN l i b) j a).

(** State of one pass of the optimised shuffle: the list and the two caches [source] and [byte_source] *)
Definition Pass : Type := list N * bytes * N.

(** body of the two inner loops, 319-332 and 343-356: refresh the caches when [j] crosses a 256- resp. 8-boundary *)
Definition pass_step (seed : bytes) (round i j : N) (p : Pass) : res Pass :=
  let '(input, source, byte_source) := p in
  let source := if N.land j 255 =? 255 then shuffle_source seed round j else source in
  let! byte_source := (if N.land j 7 =? 7 then idx source (N.shiftr (N.land j 255) 3) else Ok byte_source) in
  let bit_source := N.land (N.shiftr byte_source (N.land j 7)) 1 in
  if bit_source =? 1 then
    let! input := swapN input i j in Ok (input, source, byte_source)
  else Ok (input, source, byte_source).

(** 305-358, one round.  [i] ranges over [lo..hi]; [k] counts from 0. *)
Definition shuffle_pass (seed : bytes) (index_count : N) (input : list N) (round : N) : res (list N) :=
  let! pivot := shuffle_pivot seed round index_count in
  let source := shuffle_source seed round pivot in
  let! byte_source := idx source (N.shiftr (N.land pivot 255) 3) in
  let! p1 := add E pivot 1 in
  let mirror := N.shiftr p1 1 in
  let! p := rfold (fun p i => let! j := sub E pivot i in pass_step seed round i j p)
                  (rangeN mirror) (input, source, byte_source) in
  let '(input, _, _) := p in
  let! end_ := sub E index_count 1 in
  let source := shuffle_source seed round end_ in
  let! byte_source := idx source (N.shiftr (N.land end_ 255) 3) in
  let! m1 := add E pivot index_count in
  let! m2 := add E m1 1 in
  let mirror := N.shiftr m2 1 in
  let! p := rfold (fun p k => let! j := sub E end_ k in
                              let! i := add E p1 k in
                              pass_step seed round i j p)
                  (rangeN (mirror - p1)) (input, source, byte_source) in
  let '(input, _, _) := p in
  Ok input.

(** 287-360; [(0..=shuffle_round_count - 1).rev()].  In a release build with [shuffle_round_count = 0] the subtraction
    wraps and the loop runs over the whole [u64] range: reported as [Diverge]. *)
Definition compute_shuffled_indices (indices : list N) (seed : bytes) : res (list N) :=
  match indices with
  | [] => Ok []
  | _ =>
    let! _ := sub E (SHUFFLE_ROUND_COUNT E) 1 in
    if SHUFFLE_ROUND_COUNT E =? 0 then Diverge
    else rfold (shuffle_pass seed (lenN indices)) (rev (rangeN (SHUFFLE_ROUND_COUNT E))) indices
  end.

(** ** Proposer and committees *)

(** 362-398 *)
Definition sample_proposer_index (s : BeaconState) (candidate round : N) (seed : bytes) : res bool :=
  let! random_byte := idx (hash E (seed ++ to_le 8 (round / 32))) (round mod 32) in
  let! v := idx (validators s) candidate in
  let! a := mul E (v_effective_balance v) 255 in
  let! b := mul E (MAX_EFFECTIVE_BALANCE E) random_byte in
  Ok (b <=? a).

(** 400-457; [candidate round] is the body of the loop of either variant *)
Fixpoint proposer_loop (n : nat) (s : BeaconState) (seed : bytes) (candidate : N -> res N) (round : N) : res N :=
  match n with
  | O => Diverge
  | S n' =>
    let! c := candidate round in
    let! ok := sample_proposer_index s c round seed in
    if (ok : bool) then Ok c else proposer_loop n' s seed candidate (round + 1)
  end.
Definition compute_proposer_index (s : BeaconState) (indices : list N) (seed : bytes) : res N :=
  match indices with
  | [] => Err ECollectionCannotBeEmpty
  | _ =>
    let total := lenN indices in
    if feat_shuffling E then
      let! shuffled := compute_shuffled_indices indices seed in
      proposer_loop (fuel E) s seed (fun round => idx shuffled (round mod total)) 0
    else
      proposer_loop (fuel E) s seed
        (fun round => let! si := compute_shuffled_index (round mod total) total seed in idx indices si) 0
  end.

(** 459-483; [shuffled[start..end]] panics unless [start <= end <= len] *)
Definition compute_committee (indices : list N) (seed : bytes) (index count : N) : res (list N) :=
  if feat_shuffling E then
    let! shuffled := compute_shuffled_indices indices seed in
    let n := lenN indices in
    let! a := mul E n index in
    let! start := udiv a count in
    let! i1 := add E index 1 in
    let! b := mul E n i1 in
    let! end_ := udiv b count in
    if (start <=? end_) && (end_ <=? lenN shuffled) then Ok (firstN (end_ - start) (skipN start shuffled)) else Panic
  else
    let n := lenN indices in
    let! a := mul E n index in
    let! start := udiv a count in
    let! i1 := add E index 1 in
    let! b := mul E n i1 in
    let! end_ := udiv b count in
    let! len := sub E end_ start in
    rmap (fun i => let! si := compute_shuffled_index i n seed in idx indices si) (seqN start (N.to_nat len)).

(** 775-806 *)
Definition get_beacon_committee (s : BeaconState) (sl index : N) : res (list N) :=
  let! epoch := compute_epoch_at_slot sl in
  let! cps := get_committee_count_per_slot s epoch in
  let indices := get_active_validator_indices s epoch in
  let! seed := get_seed s epoch DBeaconAttester in
  let! r := umod sl (SLOTS_PER_EPOCH E) in
  let! a := mul E r cps in
  let! i := add E a index in
  let! count := mul E cps (SLOTS_PER_EPOCH E) in
  compute_committee indices seed i count.

(** 808-838 *)
Definition get_beacon_proposer_index (s : BeaconState) : res N :=
  let! epoch := get_current_epoch s in
  let! sd := get_seed s epoch DBeaconProposer in
  let seed := hash E (sd ++ to_le 8 (slot s)) in
  compute_proposer_index s (get_active_validator_indices s epoch) seed.

(** ** Balances *)

(** 840-868.  The Rust code iterates a [HashSet] in unspecified order; the model takes a duplicate-free list.  (The order
    matters only for whether an out-of-range index or an overflow is hit first.) *)
Definition get_total_balance (s : BeaconState) (indices : list N) : res N :=
  let! total := rfold (fun acc i => let! v := idx (validators s) i in ok_or (cadd acc (v_effective_balance v)) EOverflow)
                      indices 0 in
  Ok (N.max total (EFFECTIVE_BALANCE_INCREMENT E)).

(** 870-894 *)
Definition get_total_active_balance (s : BeaconState) : res N :=
  let! e := get_current_epoch s in
  get_total_balance s (get_active_validator_indices s e).

(** 979-1003 *)
Definition increase_balance (index delta : N) : St BeaconState unit :=
  let* b := rd (fun s => let! b := idx (balances s) index in add E b delta) in
  md (fun s => set_balances (updN (balances s) index b) s).

(** 1005-1033 *)
Definition decrease_balance (index delta : N) : St BeaconState unit :=
  let* b := rd (fun s => let! b := idx (balances s) index in if b <? delta then Ok 0 else sub E b delta) in
  md (fun s => set_balances (updN (balances s) index b) s).

(** ** Attestations *)

Fixpoint select_bits (bits : list bool) (committee : list N) : list N :=
  match bits, committee with
  | b :: bt, v :: ct => if b then v :: select_bits bt ct else select_bits bt ct
  | _, _ => []
  end.

(** 936-977.  The result is a [HashSet]; the model keeps a duplicate-free list. *)
Definition get_attesting_indices (s : BeaconState) (data : AttestationData) (bits : list bool) : res (list N) :=
  let! committee := get_beacon_committee s (ad_slot data) (ad_index data) in
  if negb (lenN bits =? lenN committee) then Err EAttBitfield
  else Ok (dedupN (select_bits bits committee)).

(** 896-934; conversion to a bounded SSZ list fails beyond MAX_VALIDATORS_PER_COMMITTEE *)
Definition get_indexed_attestation (s : BeaconState) (a : Attestation) : res IndexedAttestation :=
  let! ai := get_attesting_indices s (at_data a) (at_aggregation_bits a) in
  let sorted := isort ai in
  if MAX_VALIDATORS_PER_COMMITTEE E <? lenN sorted then Err ESimpleSerialize
  else Ok (mkIndexed sorted (at_data a) (at_signature a)).

(** 104-121: one pass; [dups] records whether a duplicate was inserted *)
Fixpoint check_sorted (prev : N) (l : list N) (dups : bool) : res bool :=
  match l with
  | [] => Ok dups
  | x :: t => if x <? prev then Err EIdxAttestingIndicesNotSorted
              else check_sorted x t (dups || (x =? prev))
  end.

(** 71-142 *)
Definition is_valid_indexed_attestation (s : BeaconState) (ia : IndexedAttestation) : res unit :=
  match ia_attesting_indices ia with
  | [] => Err EIdxAttestingIndicesEmpty
  | i0 :: rest =>
    let! dups := check_sorted i0 rest false in
    if (dups : bool) then Err EIdxDuplicateIndices else
    let! pks := rmap (fun i => let! v := getN (validators s) i EIdxInvalidIndex in Ok (v_public_key v))
                     (ia_attesting_indices ia) in
    let! domain := get_domain s DBeaconAttester (Some (cp_epoch (ad_target (ia_data ia)))) in
    let! root := compute_signing_root (OAttestationData (ia_data ia)) domain in
    require (fast_aggregate_verify_ok E pks root (ia_signature ia)) EBls
  end.

(** 144-188 *)
Definition verify_block_signature (f : Fork) (s : BeaconState) (sb : SignedBeaconBlock) : res unit :=
  let! proposer := getN (validators s) (bk_proposer_index (sb_message sb)) EOutOfBounds in
  let! domain := get_domain s DBeaconProposer None in
  verify_signed_data (OBlock f (sb_message sb)) (sb_signature sb) (v_public_key proposer) domain.

(** ** Exits and slashings *)

Definition mod_validator (i : N) (g : Validator -> Validator) : St BeaconState unit :=
  let* v := rd (fun s => idx (validators s) i) in
  md (fun s => set_validators (updN (validators s) i (g v)) s).

Definition maxN (l : list N) (d : N) : N := fold_left N.max l d.

(** 1062-1078 *)
Definition exit_queue_epoch (s : BeaconState) : res N :=
  let exit_epochs := map v_exit_epoch (filter (fun v => negb (v_exit_epoch v =? FAR_FUTURE_EPOCH)) (validators s)) in
  let! e := get_current_epoch s in
  let! ae := compute_activation_exit_epoch e in
  let q := maxN exit_epochs ae in
  let churn := lenN (filter (fun v => v_exit_epoch v =? q) (validators s)) in
  let! limit := get_validator_churn_limit s in
  if limit <=? churn then add E q 1 else Ok q.

(** 1035-1086; [exit_epoch] is written before the checked addition that may fail *)
Definition initiate_validator_exit (index : N) : St BeaconState unit :=
  let* v := rd (fun s => idx (validators s) index) in
  if negb (v_exit_epoch v =? FAR_FUTURE_EPOCH) then sret tt
  else
    let* q := rd exit_queue_epoch in
    mod_validator index (set_v_exit_epoch q) ;;
    let* w := lift (ok_or (cadd q (MIN_VALIDATOR_WITHDRAWABILITY_DELAY E)) EOverflow) in
    mod_validator index (set_v_withdrawable_epoch w).

(** 1088-1137 (phase0), altair/helpers.rs, bellatrix/helpers.rs, electra/helpers.rs: see SlashValidator in Slashing.v *)

(** 1139-1172 *)
Fixpoint eligible_from (vs : list Validator) (i prev prev1 : N) : list N :=
  match vs with
  | [] => []
  | v :: t =>
    if is_active_validator v prev || (v_slashed v && (prev1 <? v_withdrawable_epoch v))
    then i :: eligible_from t (i + 1) prev prev1 else eligible_from t (i + 1) prev prev1
  end.
(** [previous_epoch + 1] is evaluated only for slashed validators; since [previous_epoch < current_epoch] or both are 0,
    it cannot overflow when the slot is a [u64] and SLOTS_PER_EPOCH >= 1. *)
Definition get_eligible_validator_indices (s : BeaconState) : res (list N) :=
  let! prev := get_previous_epoch s in
  Ok (eligible_from (validators s) 0 prev (prev + 1)).

End WithEnv.
