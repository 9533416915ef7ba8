(** * Property theorems C01 - C10 and C26: shuffling, committees, predicates, balances, exit queue

    Statements only; the proofs are in ShuffleProofs, HelperProofs, HelperProofs2.  Every theorem is followed by an
    example meeting its hypotheses. *)
From Verif Require Import Base BaseLemmas Types Ctx Presets Env Helpers SpecCommon SpecShuffle SpecHelpers
  ShuffleProofs HelperProofs HelperProofs2 Toy.
From Coq Require Import Permutation Sorted.

(** ** C01: shuffling is a permutation of [0, n), equal to the reference swap-or-not network; other indices are rejected *)
Theorem C01_shuffle_permutation : forall (E : Env) (seed : bytes) (n : N),
  hash_wf (hash E) -> n <= 2 ^ 63 ->
  exists p : N -> N,
    (forall i, i < n -> compute_shuffled_index E i n seed = Ok (p i) /\ p i < n)
    /\ (forall i j, i < n -> j < n -> p i = p j -> i = j)
    /\ (forall k, k < n -> exists i, i < n /\ p i = k).
Proof.
  intros E seed n Hwf Hn. exists (perm E seed n).
  assert (Hlt : forall i, i < n -> perm E seed n i < n) by (intros; apply perm_lt; assumption).
  pose proof (perm_permutation E seed n) as Hp.
  split; [|split].
  - intros i Hi. split; [apply compute_shuffled_index_ok; assumption|auto].
  - intros i j Hi Hj Heq.
    assert (Hnd : NoDup (map (perm E seed n) (rangeN n))).
    { eapply Permutation_NoDup; [symmetry; exact Hp|apply NoDup_rangeN]. }
    assert (forall a, a < n -> nthN (map (perm E seed n) (rangeN n)) a = Some (perm E seed n a)) as Hnth.
    { intros a Ha. rewrite nthN_map, nthN_rangeN by exact Ha. reflexivity. }
    pose proof (proj1 (NoDup_nth_error _) Hnd (N.to_nat i) (N.to_nat j)) as Hinj.
    rewrite <- !nthN_nth_error in Hinj. rewrite !Hnth in Hinj by assumption. rewrite Heq in Hinj.
    assert (Hlen : (N.to_nat i < length (map (perm E seed n) (rangeN n)))%nat).
    { rewrite map_length. unfold rangeN. rewrite length_seqN. lia. }
    specialize (Hinj Hlen eq_refl). lia.
  - intros k Hk. assert (Hin : In k (map (perm E seed n) (rangeN n))).
    { eapply Permutation_in; [symmetry; exact Hp|]. apply In_rangeN. exact Hk. }
    apply in_map_iff in Hin as (i & Hi & Hr). exists i. split; [apply In_rangeN in Hr; exact Hr|exact Hi].
Qed.
Theorem C01_shuffle_rejects : forall (E : Env) (seed : bytes) (n i : N),
  n <= i -> compute_shuffled_index E i n seed = Err EInvalidShufflingIndex.
Proof. intros. apply compute_shuffled_index_err. assumption. Qed.
(** the function computed is the reference shuffle of the specification *)
Theorem C01_shuffle_reference : forall (E : Env) (seed : bytes) (n i : N),
  hash_wf (hash E) -> n <= 2 ^ 40 -> SHUFFLE_ROUND_COUNT E <= 256 -> i < n ->
  compute_shuffled_index E i n seed = Ok (spec_shuffle (hash E) seed n (SHUFFLE_ROUND_COUNT E) i).
Proof.
  intros E seed n i Hwf Hn Hr Hi. rewrite compute_shuffled_index_ok; [|exact Hwf|pows; lia|exact Hi].
  rewrite perm_spec by assumption. reflexivity.
Qed.
Example C01_example : hash_wf (hash toy) /\ 5 <= 2 ^ 63 /\ SHUFFLE_ROUND_COUNT toy <= 256 /\
  map (fun i => compute_shuffled_index toy i 5 [1;2;3]) (rangeN 5)
   = map Ok [1; 3; 0; 4; 2].
Proof. split; [exact toy_hash_wf|]. split; [vm_compute; discriminate|]. split; [vm_compute; discriminate|]. vm_compute. reflexivity. Qed.

(** ** C02: the whole-list shuffle places at position i the element selected by the index shuffle *)
Theorem C02_optimised_shuffle : forall (E : Env) (seed : bytes) (l : list N),
  hash_wf (hash E) -> 0 < SHUFFLE_ROUND_COUNT E -> lenN l < 2 ^ 63 ->
  exists l', compute_shuffled_indices E l seed = Ok l' /\ lenN l' = lenN l
    /\ forall i, i < lenN l -> exists j, compute_shuffled_index E i (lenN l) seed = Ok j /\ nthN l' i = nthN l j.
Proof.
  intros E seed l Hwf Hr Hl. destruct (compute_shuffled_indices_ok E Hwf seed l Hr Hl) as (l' & H1 & H2 & H3).
  exists l'. split; [exact H1|]. split; [exact H2|]. intros i Hi. exists (perm E seed (lenN l) i).
  split; [apply compute_shuffled_index_ok; [exact Hwf|lia|exact Hi]|apply H3; exact Hi].
Qed.
Example C02_example : hash_wf (hash toy) /\ 0 < SHUFFLE_ROUND_COUNT toy /\
  compute_shuffled_indices toy [10;11;12;13;14] [1;2;3] = Ok [11; 13; 10; 14; 12].
Proof. split; [exact toy_hash_wf|]. split; vm_compute; reflexivity. Qed.

(** ** C03: the committees of an epoch partition the active set *)
Theorem C03_committees_partition : forall (E : Env) (s : BeaconState) (e : N),
  ctx_sane E -> hash_wf (hash E) -> state_shape E s -> e < 2 ^ 40 ->
  exists (count : N) (committee : N -> N -> list N),
    get_committee_count_per_slot E s e = Ok count /\ 1 <= count <= MAX_COMMITTEES_PER_SLOT E
    /\ (forall sl c, sl / SLOTS_PER_EPOCH E = e -> c < count -> get_beacon_committee E s sl c = Ok (committee sl c))
    /\ Permutation
         (flat_map (fun r => flat_map (fun c => committee (e * SLOTS_PER_EPOCH E + r) c) (rangeN count))
                   (rangeN (SLOTS_PER_EPOCH E)))
         (active_set s e).
Proof.
  intros E s e Hc Hwf Hs He. destruct (epoch_committees_partition E Hc Hwf s e Hs He) as (com & H1 & H2).
  exists (committees_per_slot E s e), com. split; [apply committee_count_ok; exact Hc|].
  split; [apply cps_bounds; exact Hc|]. split; assumption.
Qed.
Example C03_example : ctx_sane toy /\ state_shape toy (toy_state 20 17) /\ 2 < 2 ^ 40 /\
  get_committee_count_per_slot toy (toy_state 20 17) 2 = Ok 1 /\
  get_beacon_committee toy (toy_state 20 17) 17 0 = get_beacon_committee toy_fast (toy_state 20 17) 17 0 /\
  exists a b c, get_beacon_committee toy (toy_state 20 17) 17 0 = Ok [a; b; c].
Proof.
  split; [exact toy_sane|]. split; [apply toy_shape; vm_compute; discriminate|]. split; [vm_compute; reflexivity|].
  split; [vm_compute; reflexivity|]. split; [vm_compute; reflexivity|]. vm_compute. repeat eexists.
Qed.

(** ** C04: the proposer is active and is the first accepted candidate, in both build variants *)
Theorem C04_proposer_index : forall (E : Env) (s : BeaconState),
  ctx_sane E -> hash_wf (hash E) -> state_shape E s -> slot_small s -> effective_bounded s -> N.of_nat (fuel E) < 2 ^ 60 ->
  let A := active_set s (epoch_of E s) in
  A <> [] ->
  exists mix seed,
    nthN (randao_mixes s) ((epoch_of E s + EPOCHS_PER_HISTORICAL_VECTOR E - MIN_SEED_LOOKAHEAD E - 1) mod EPOCHS_PER_HISTORICAL_VECTOR E) = Some mix
    /\ seed = hash E (hash E ([0;0;0;0] ++ to_le 8 (epoch_of E s) ++ mix) ++ to_le 8 (slot s))
    /\ ((exists i r, get_beacon_proposer_index E s = Ok i /\ In i A /\ r < N.of_nat (fuel E) /\ first_accepted E s A seed r i)
        \/ (get_beacon_proposer_index E s = Diverge
            /\ forall r i, r < N.of_nat (fuel E) -> proposer_candidate E A seed r = Some i -> ~ proposer_accepts E s seed i r)).
Proof.
  intros E s Hc Hwf Hs Hsl Hb Hf A HA. pose proof (epoch_small E Hc s Hsl) as He.
  destruct (seed_ok E Hc s (epoch_of E s) DBeaconProposer Hs ltac:(pows; lia)) as (mix & Hm & Hseed).
  exists mix. eexists. split; [exact Hm|]. split; [reflexivity|].
  unfold get_beacon_proposer_index. rewrite current_epoch_ok by exact Hc. cbn [rbind].
  rewrite Hseed. cbn [rbind]. change (domain_bytes DBeaconProposer) with [0;0;0;0].
  set (seed := hash E (hash E ([0;0;0;0] ++ to_le 8 (epoch_of E s) ++ mix) ++ to_le 8 (slot s))).
  rewrite get_active_ok. fold A.
  destruct (compute_proposer_index_spec E Hc Hwf s A seed HA) as [(i & r & H1 & H2 & H3)|[H1 H2]].
  - unfold A. pose proof (active_set_le s (epoch_of E s)). unfold state_shape in Hs. lia.
  - intros i v _ Hv. apply Hb. eapply nthN_In; eauto.
  - apply active_in_range.
  - exact Hf.
  - left. exists i, r. split; [exact H1|]. split; [|split; [exact H2|exact H3]]. destruct H3 as [H3 _]. unfold proposer_candidate in H3. eapply nthN_In; eauto.
  - right. split; [exact H1|exact H2].
Qed.
Theorem C04_no_active : forall (E : Env) (s : BeaconState),
  ctx_sane E -> state_shape E s -> slot_small s -> active_set s (epoch_of E s) = [] ->
  get_beacon_proposer_index E s = Err ECollectionCannotBeEmpty.
Proof.
  intros E s Hc Hs Hsl HA. pose proof (epoch_small E Hc s Hsl) as He.
  destruct (seed_ok E Hc s (epoch_of E s) DBeaconProposer Hs ltac:(pows; lia)) as (mix & Hm & Hseed).
  unfold get_beacon_proposer_index. rewrite current_epoch_ok by exact Hc. cbn [rbind].
  rewrite Hseed. cbn [rbind]. rewrite get_active_ok, HA. reflexivity.
Qed.
(** the two build variants (cargo feature "shuffling" on or off) choose the same proposer *)
Definition with_shuffling (b : bool) (E : Env) : Env := mkEnv (ctx E) (orc E) (chk E) b (fuel E).
Theorem C04_variants_agree : forall (E : Env) (s : BeaconState),
  ctx_sane E -> hash_wf (hash E) -> state_shape E s -> slot_small s -> effective_bounded s -> N.of_nat (fuel E) < 2 ^ 60 ->
  get_beacon_proposer_index (with_shuffling true E) s = get_beacon_proposer_index (with_shuffling false E) s.
Proof.
  intros E s Hc Hwf Hs Hsl Hb Hf.
  destruct (active_set s (epoch_of E s)) as [|a A0] eqn:HA.
  { rewrite !C04_no_active; auto. }
  assert (HAne : active_set s (epoch_of E s) <> []) by (rewrite HA; discriminate).
  destruct (C04_proposer_index (with_shuffling true E) s Hc Hwf Hs Hsl Hb Hf HAne) as (mix & seed & Hm & Hsd & H1).
  destruct (C04_proposer_index (with_shuffling false E) s Hc Hwf Hs Hsl Hb Hf HAne) as (mix' & seed' & Hm' & Hsd' & H2).
  assert (mix' = mix) as -> by (pose proof (eq_trans (eq_sym Hm') Hm) as Hmm; congruence).
  change (hash (with_shuffling false E)) with (hash (with_shuffling true E)) in Hsd'.
  change (epoch_of (with_shuffling false E) s) with (epoch_of (with_shuffling true E) s) in Hsd'.
  assert (seed' = seed) as -> by congruence.
  destruct H1 as [(i & r & H1 & _ & Hr1 & H1')|[H1 H1']], H2 as [(i' & r' & H2 & _ & Hr2 & H2')|[H2 H2']].
  - rewrite H1, H2. f_equal. destruct H1' as (Ha & Hb1 & Hc1), H2' as (Ha' & Hb' & Hc').
    assert (r = r').
    { destruct (N.lt_trichotomy r r') as [Hlt|[Heq|Hlt]]; [|exact Heq|].
      - exfalso. exact (Hc' r i Hlt Ha Hb1).
      - exfalso. exact (Hc1 r' i' Hlt Ha' Hb'). }
    subst r'. pose proof (eq_trans (eq_sym Ha') Ha) as Hii. congruence.
  - exfalso. destruct H1' as (Ha & Hb1 & _). exact (H2' r i Hr1 Ha Hb1).
  - exfalso. destruct H2' as (Ha & Hb1 & _). exact (H1' r' i' Hr2 Ha Hb1).
  - congruence.
Qed.
Lemma toy_bounded n sl : effective_bounded (toy_state n sl).
Proof. intros v Hv. cbn in Hv. apply in_map_iff in Hv as (i & <- & _). vm_compute. discriminate. Qed.
Example C04_example : ctx_sane toy /\ hash_wf (hash toy) /\ state_shape toy (toy_state 20 17) /\ slot_small (toy_state 20 17)
  /\ effective_bounded (toy_state 20 17) /\ N.of_nat (fuel toy) < 2 ^ 60
  /\ active_set (toy_state 20 17) (epoch_of toy (toy_state 20 17)) = rangeN 20
  /\ get_beacon_proposer_index toy (toy_state 20 17) = Ok 14 /\ get_beacon_proposer_index toy_fast (toy_state 20 17) = Ok 14.
Proof.
  split; [exact toy_sane|]. split; [exact toy_hash_wf|]. split; [apply toy_shape; vm_compute; discriminate|].
  split; [vm_compute; reflexivity|]. split; [apply toy_bounded|].
  split; [vm_compute; reflexivity|]. split; [vm_compute; reflexivity|]. split; vm_compute; reflexivity.
Qed.

(** ** C05: slashable vote pairs *)
Theorem C05_slashable_votes : forall a b : AttestationData,
  is_slashable_attestation_data a b = true <-> double_vote a b \/ surrounds a b.
Proof. exact slashable_data_spec. Qed.
Definition vote (s t r : N) : AttestationData := mkAttData 0 0 (to_le 32 r) (mkCheckpoint s zero32) (mkCheckpoint t zero32).
Example C05_example :
  is_slashable_attestation_data (vote 1 5 0) (vote 2 4 0) = true /\ is_slashable_attestation_data (vote 2 4 0) (vote 1 5 0) = false
  /\ is_slashable_attestation_data (vote 1 5 0) (vote 1 5 1) = true /\ is_slashable_attestation_data (vote 1 5 0) (vote 1 5 0) = false
  /\ is_slashable_attestation_data (vote 1 2 0) (vote 2 3 0) = false.
Proof. vm_compute. repeat split. Qed.

(** ** C06: indexed attestations *)
Theorem C06_indexed_attestation : forall (E : Env) (s : BeaconState) (ia : IndexedAttestation),
  is_valid_indexed_attestation E s ia = Ok tt <->
  ia_attesting_indices ia <> [] /\ StronglySorted N.lt (ia_attesting_indices ia)
  /\ exists pks dom root,
       Forall2 (fun i pk => exists v, nthN (validators s) i = Some v /\ pk = v_public_key v) (ia_attesting_indices ia) pks
       /\ is_domain E [1; 0; 0; 0] (version_at s (cp_epoch (ad_target (ia_data ia)))) (genesis_validators_root s) dom
       /\ is_signing_root E (OAttestationData (ia_data ia)) dom root
       /\ fast_aggregate_verify_ok E pks root (ia_signature ia) = true.
Proof. exact valid_indexed_iff. Qed.
Definition toy_domain (t : bytes) (v : bytes) (s : BeaconState) : bytes :=
  t ++ firstn 28 (toy_hash (1 :: v ++ genesis_validators_root s)).
Definition toy_root (o : SszObj) (d : bytes) : bytes :=
  match toy_htr o with Some r => toy_hash (2 :: r ++ d) | None => [] end.
Definition toy_indexed (s : BeaconState) (is_ : list N) (d : AttestationData) : IndexedAttestation :=
  mkIndexed is_ d (toy_sign (flat_map toy_pk is_) (toy_root (OAttestationData d) (toy_domain [1;0;0;0] [1;0;0;1] s))).
Example C06_example :
  is_valid_indexed_attestation toy (toy_state 20 17) (toy_indexed (toy_state 20 17) [3; 5; 8] (vote 1 2 0)) = Ok tt
  /\ is_valid_indexed_attestation toy (toy_state 20 17) (toy_indexed (toy_state 20 17) [3; 8; 5] (vote 1 2 0)) <> Ok tt
  /\ is_valid_indexed_attestation toy (toy_state 20 17) (toy_indexed (toy_state 20 17) [3; 5; 5] (vote 1 2 0)) <> Ok tt
  /\ is_valid_indexed_attestation toy (toy_state 20 17) (toy_indexed (toy_state 20 17) [3; 25] (vote 1 2 0)) <> Ok tt.
Proof. vm_compute. repeat split; discriminate. Qed.

(** ** C07: life-cycle predicates *)
Theorem C07_lifecycle : forall (E : Env) (s : BeaconState) (v : Validator) (e : N),
  (is_active_validator v e = true <-> v_activation_epoch v <= e < v_exit_epoch v)
  /\ (is_slashable_validator v e = true <-> v_slashed v = false /\ v_activation_epoch v <= e < v_withdrawable_epoch v)
  /\ (is_eligible_for_activation_queue E v = true <->
        v_activation_eligibility_epoch v = FAR_FUTURE_EPOCH /\ v_effective_balance v = MAX_EFFECTIVE_BALANCE E)
  /\ (is_eligible_for_activation s v = true <->
        v_activation_eligibility_epoch v <= cp_epoch (finalized_checkpoint s) /\ v_activation_epoch v = FAR_FUTURE_EPOCH).
Proof.
  intros. split; [apply active_spec|]. split; [apply slashable_spec|]. split; [apply queue_eligible_spec|apply activatable_spec].
Qed.
Example C07_example :
  let v := mkValidator (toy_pk 1) zero32 32000000000 false 3 5 9 20 in
  map (is_active_validator v) [4;5;8;9] = [false; true; true; false] /\ map (is_slashable_validator v) [4;5;19;20] = [false; true; true; false].
Proof. vm_compute. split; reflexivity. Qed.

(** ** C08: balance updates *)
Theorem C08_increase_balance : forall (E : Env) (s : BeaconState) (i delta b : N),
  nthN (balances s) i = Some b -> b + delta < 2 ^ 64 ->
  exists s', increase_balance E i delta s = (Ok tt, s')
    /\ s' = set_balances (balances s') s /\ lenN (balances s') = lenN (balances s)
    /\ forall j, nthN (balances s') j = if j =? i then Some (b + delta) else nthN (balances s) j.
Proof.
  intros E s i d b Hb Hd. eexists. split; [apply increase_balance_ok; eassumption|]. gs. split; [reflexivity|].
  split; [apply lenN_updN|]. intros j. rewrite nthN_updN. apply nthN_some in Hb.
  destruct (N.ltb_spec i (lenN (balances s))); [|lia]. rewrite andb_true_r. reflexivity.
Qed.
Theorem C08_decrease_balance : forall (E : Env) (s : BeaconState) (i delta b : N),
  nthN (balances s) i = Some b ->
  exists s', decrease_balance E i delta s = (Ok tt, s')
    /\ s' = set_balances (balances s') s /\ lenN (balances s') = lenN (balances s)
    /\ forall j, nthN (balances s') j = if j =? i then Some (b - N.min delta b) else nthN (balances s) j.
Proof.
  intros E s i d b Hb. eexists. split; [apply decrease_balance_ok; eassumption|]. gs. split; [reflexivity|].
  split; [apply lenN_updN|]. intros j. rewrite nthN_updN. apply nthN_some in Hb.
  destruct (N.ltb_spec i (lenN (balances s))); [|lia]. rewrite andb_true_r.
  replace (b - N.min d b) with (b - d) by lia. reflexivity.
Qed.
(** unknown accounts: a panic and no write.  Overflow of the sum: a panic in debug builds; release builds wrap *)
Theorem C08_unknown_index : forall (E : Env) (s : BeaconState) (i delta : N),
  lenN (balances s) <= i -> increase_balance E i delta s = (Panic, s) /\ decrease_balance E i delta s = (Panic, s).
Proof. intros. split; [apply increase_balance_oob|apply decrease_balance_oob]; assumption. Qed.
Theorem C08_increase_overflow_refuted : exists (E : Env) (s : BeaconState) (i delta b b' : N) (s' : BeaconState),
  nthN (balances s) i = Some b /\ increase_balance E i delta s = (Ok tt, s') /\ nthN (balances s') i = Some b' /\ b' < b.
Proof.
  exists toy_release, (toy_state 3 0), 1, (2 ^ 64 - 1), 32000000000, 31999999999. eexists. vm_compute. repeat split.
Qed.
Example C08_example : nthN (balances (toy_state 3 0)) 1 = Some 32000000000 /\ 32000000000 + 5 < 2 ^ 64
  /\ balances (snd (increase_balance toy 1 5 (toy_state 3 0))) = [32000000000; 32000000005; 32000000000]
  /\ balances (snd (decrease_balance toy 1 (2 ^ 63) (toy_state 3 0))) = [32000000000; 0; 32000000000].
Proof. vm_compute. repeat split. Qed.

(** ** C09: total balance *)
Theorem C09_total_balance : forall (E : Env) (s : BeaconState) (l : list N),
  (forall i, In i l -> i < lenN (validators s)) ->
  (effective_sum s l < 2 ^ 64 /\ get_total_balance E s l = Ok (N.max (effective_sum s l) (EFFECTIVE_BALANCE_INCREMENT E)))
  \/ (2 ^ 64 <= effective_sum s l /\ get_total_balance E s l = Err EOverflow).
Proof.
  intros E s l Hl. rewrite get_total_balance_ok by exact Hl. change (2 ^ 64) with U64.
  destruct (N.ltb_spec (effective_sum s l) U64); [left|right]; auto.
Qed.
Theorem C09_total_active_balance : forall (E : Env) (s : BeaconState),
  ctx_sane E ->
  (effective_sum s (active_set s (epoch_of E s)) < 2 ^ 64
   /\ get_total_active_balance E s = Ok (N.max (effective_sum s (active_set s (epoch_of E s))) (EFFECTIVE_BALANCE_INCREMENT E)))
  \/ (2 ^ 64 <= effective_sum s (active_set s (epoch_of E s)) /\ get_total_active_balance E s = Err EOverflow).
Proof.
  intros E s Hc. rewrite get_total_active_balance_ok by exact Hc. change (2 ^ 64) with U64. unfold total_active.
  destruct (N.ltb_spec (effective_sum s (active_set s (epoch_of E s))) U64); [left|right]; auto.
Qed.
Example C09_example : get_total_active_balance toy (toy_state 5 0) = Ok 160000000000 /\ get_total_active_balance toy (toy_state 0 0) = Ok 1000000000
  /\ (forall i, In i [0; 4] -> i < lenN (validators (toy_state 5 0))) /\ get_total_balance toy (toy_state 5 0) [0; 4] = Ok 64000000000.
Proof.
  split; [vm_compute; reflexivity|]. split; [vm_compute; reflexivity|]. split; [|vm_compute; reflexivity].
  intros i [<-|[<-|[]]]; vm_compute; reflexivity.
Qed.

(** ** C10: exit queue *)
Theorem C10_already_exiting : forall (E : Env) (s : BeaconState) (i : N) (v : Validator),
  nthN (validators s) i = Some v -> v_exit_epoch v <> FAR_FUTURE_EPOCH -> initiate_validator_exit E i s = (Ok tt, s).
Proof. exact initiate_exit_noop. Qed.
Theorem C10_initiate_exit : forall (E : Env) (s : BeaconState) (i : N) (v : Validator),
  ctx_sane E -> slot_small s -> exits_below s (2 ^ 62) ->
  nthN (validators s) i = Some v -> v_exit_epoch v = FAR_FUTURE_EPOCH ->
  exists q s', initiate_validator_exit E i s = (Ok tt, s')
    (* only this validator changes, and only its two epochs *)
    /\ s' = set_validators (updN (validators s) i
              (set_v_withdrawable_epoch (q + MIN_VALIDATOR_WITHDRAWABILITY_DELAY E) (set_v_exit_epoch q v))) s
    (* not before the delay, not before anybody already queued *)
    /\ earliest_exit E s <= q
    /\ (forall w, In w (validators s) -> v_exit_epoch w <> FAR_FUTURE_EPOCH -> v_exit_epoch w <= q)
    (* the churn limit is respected in the epoch assigned *)
    /\ exits_at s' q <= churn_limit E s
    (* and the validator is not delayed without need: unless q is the tail of the queue, the tail is full *)
    /\ (forall e, earliest_exit E s <= e -> e < q ->
          (exists w, In w (validators s) /\ v_exit_epoch w <> FAR_FUTURE_EPOCH /\ e < v_exit_epoch w) \/ churn_limit E s <= exits_at s e).
Proof.
  intros E s i v Hc Hs Hb Hv Hf.
  assert (He : earliest_exit E s < 2 ^ 62).
  { pose proof (epoch_small E Hc s Hs). unfold earliest_exit. ctxs Hc. lia. }
  pose proof (queue_head_lt E s _ Hb He) as Hq. pose proof (next_exit_bounds E s) as Hn.
  exists (next_exit E s). eexists. split; [apply (initiate_exit_ok E Hc s i v Hv Hf Hs); pows; lia|].
  split; [reflexivity|]. split; [pose proof (queue_head_earliest E s); lia|].
  split; [intros w Hw Hne; pose proof (queue_head_ge E s w Hw Hne); lia|].
  assert (Hne : next_exit E s <> FAR_FUTURE_EPOCH) by (unfold FAR_FUTURE_EPOCH; pows; lia).
  split.
  - rewrite exits_at_after by assumption. rewrite N.eqb_refl.
    assert (1 <= churn_limit E s) by (unfold churn_limit; ctxs Hc; lia).
    unfold next_exit in *. destruct (N.leb_spec (churn_limit E s) (exits_at s (queue_head E s))) as [Hge|Hlt]; [|lia].
    rewrite exits_at_beyond with (E := E); [lia|lia|assumption].
  - intros e He1 He2. destruct (N.lt_ge_cases e (queue_head E s)) as [Hlt|Hge].
    + left. unfold queue_head, maxN in Hlt.
      destruct (fold_max_in (map v_exit_epoch (filter (fun v => negb (v_exit_epoch v =? FAR_FUTURE_EPOCH)) (validators s))) (earliest_exit E s)) as [Heq|Hin]; [rewrite Heq in Hlt; lia|].
      apply in_map_iff in Hin as (w & Hw & Hin). apply filter_In in Hin as [Hin Hnf].
      exists w. split; [exact Hin|]. split; [apply negb_true_iff, N.eqb_neq in Hnf; exact Hnf|]. rewrite Hw. exact Hlt.
    + right. assert (e = queue_head E s) as -> by lia. unfold next_exit in He2.
      destruct (N.leb_spec (churn_limit E s) (exits_at s (queue_head E s))); lia.
Qed.
(** any sequence of exit requests *)
Theorem C10_exit_sequence : forall (E : Env) (s : BeaconState) (l : list N),
  ctx_sane E -> slot_small s -> exits_below s (2 ^ 62) -> lenN l <= 2 ^ 40 ->
  (forall i, In i l -> i < lenN (validators s)) ->
  exists s', sfor l (initiate_validator_exit E) s = (Ok tt, s')
    /\ s' = set_validators (validators s') s
    /\ lenN (validators s') = lenN (validators s)
    /\ (forall e, e <> FAR_FUTURE_EPOCH -> exits_at s' e <= N.max (exits_at s e) (churn_limit E s))
    /\ (forall i v, In i l -> nthN (validators s') i = Some v -> v_exit_epoch v <> FAR_FUTURE_EPOCH)
    /\ (forall i v, nthN (validators s) i = Some v -> ~ In i l \/ v_exit_epoch v <> FAR_FUTURE_EPOCH ->
          nthN (validators s') i = Some v).
Proof.
  intros E s l Hc Hs Hb Hl Hin.
  assert (He : earliest_exit E s < 2 ^ 62).
  { pose proof (epoch_small E Hc s Hs). unfold earliest_exit. ctxs Hc. lia. }
  destruct (exit_sequence E Hc l s (2 ^ 62) Hs Hin Hb He) as (vs & H1 & H2 & H3 & H4 & H5 & H6); [pows; lia|].
  exists (set_validators vs s). split; [exact H1|]. gs. split; [reflexivity|]. split; [exact H2|]. split; [exact H4|]. split; assumption.
Qed.
Example C10_example : ctx_sane toy /\ slot_small (toy_state 6 17) /\ exits_below (toy_state 6 17) (2 ^ 62) /\ churn_limit toy (toy_state 6 17) = 2
  /\ map v_exit_epoch (validators (snd (sfor [4; 0; 2; 4; 1] (initiate_validator_exit toy) (toy_state 6 17))))
     = [7; 8; 8; FAR_FUTURE_EPOCH; 7; FAR_FUTURE_EPOCH].
Proof.
  split; [exact toy_sane|]. split; [vm_compute; reflexivity|]. split.
  - intros v Hv Hne. cbn in Hv. exfalso. apply Hne. destruct Hv as [<-|[<-|[<-|[<-|[<-|[<-|[]]]]]]]; reflexivity.
  - vm_compute. split; reflexivity.
Qed.

(** ** C26: attesting indices *)
Theorem C26_attesting_indices : forall (E : Env) (s : BeaconState) (d : AttestationData) (bits : list bool) (committee : list N),
  get_beacon_committee E s (ad_slot d) (ad_index d) = Ok committee ->
  (lenN bits <> lenN committee -> get_attesting_indices E s d bits = Err EAttBitfield)
  /\ (lenN bits = lenN committee -> exists l, get_attesting_indices E s d bits = Ok l /\ NoDup l
        /\ forall v, In v l <-> exists k, nthN bits k = Some true /\ nthN committee k = Some v).
Proof.
  intros E s d bits com Hcom. rewrite (get_attesting_indices_ok E s d bits com Hcom).
  split; intros Hl; destruct (N.eqb_spec (lenN bits) (lenN com)); try congruence.
  eexists. split; [reflexivity|]. split; [apply NoDup_dedupN|]. intros v. rewrite In_dedupN. apply In_select_bits.
Qed.
Example C26_example : exists a b c,
  get_beacon_committee toy (toy_state 24 17) 17 0 = Ok [a; b; c] /\ get_attesting_indices toy (toy_state 24 17) (mkAttData 17 0 zero32 zero_cp zero_cp) [true; false; true] = Ok [a; c].
Proof. vm_compute. repeat eexists. Qed.

Print Assumptions C01_shuffle_permutation.
Print Assumptions C01_shuffle_rejects.
Print Assumptions C01_shuffle_reference.
Print Assumptions C02_optimised_shuffle.
Print Assumptions C03_committees_partition.
Print Assumptions C04_proposer_index.
Print Assumptions C04_no_active.
Print Assumptions C04_variants_agree.
Print Assumptions C05_slashable_votes.
Print Assumptions C06_indexed_attestation.
Print Assumptions C07_lifecycle.
Print Assumptions C08_increase_balance.
Print Assumptions C08_decrease_balance.
Print Assumptions C08_unknown_index.
Print Assumptions C08_increase_overflow_refuted.
Print Assumptions C09_total_balance.
Print Assumptions C09_total_active_balance.
Print Assumptions C10_already_exiting.
Print Assumptions C10_initiate_exit.
Print Assumptions C10_exit_sequence.
Print Assumptions C26_attesting_indices.
