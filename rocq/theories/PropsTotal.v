(** * Property theorems: slot and epoch processing of states of realistic size do not fail (C74)

    [E] ranges over both builds: with overflow checks an overflow is a panic, so the absence of panics there means that no
    operation wraps in the build without checks either. *)
From Verif Require Import Base BaseLemmas Types Ctx Env Presets Helpers HelpersAltair HelpersElectra Block Epoch Transition StLemmas
  SpecCommon SpecShuffle SpecHelpers SpecElectra SpecOps SpecBlock SpecAtt SpecFinality SpecSlots SpecEpoch SpecRegistry SpecQueues SpecPhase0 SpecTotal
  ShuffleProofs HelperProofs HelperProofs2 OpsProofs ElectraProofs AttProofs FinalityProofs EpochProofs RegistryProofs RewardProofs PeriodicProofs QueueProofs SlotProofs Phase0Proofs
  PropsAtt PropsFinality PropsEpoch PropsQueues PropsPhase0 TotalProofs Toy ToyCtx Toy2 Toy3.

(** an epoch that does not end a sync committee period succeeds *)
Theorem C74_epoch_ok : forall (E : Env) (f : Fork) (s : BeaconState),
  ctx_sane E -> ctx_sane_electra E -> ctx_sane_epoch E -> ctx_sane_att E -> mainnet_scale E -> hashing_total E -> hash_wf (hash E) ->
  within_bounds E f s -> 0 < slot s mod SLOTS_PER_EPOCH E ->
  f = Phase0 \/ epoch_ends_period E s (EPOCHS_PER_SYNC_COMMITTEE_PERIOD E) = false ->
  fst (process_epoch E f s) = Ok tt.
Proof. intros E f s C1 C2 C3 C4 C5 C6 C7 W Hp Hd. exact (proj1 (epoch_no_panic E C1 C5 C2 C3 C6 C4 C7 f s W Hp) Hd). Qed.
(** an epoch that ends one samples a committee: it does not panic when anyone is active in the next epoch *)
Theorem C74_epoch_no_panic : forall (E : Env) (f : Fork) (s : BeaconState),
  ctx_sane E -> ctx_sane_electra E -> ctx_sane_epoch E -> ctx_sane_att E -> mainnet_scale E -> hashing_total E -> hash_wf (hash E) ->
  within_bounds E f s -> 0 < slot s mod SLOTS_PER_EPOCH E -> active_set s (epoch_of E s + 1) <> [] -> N.of_nat (fuel E) < 2 ^ 60 ->
  fst (process_epoch E f s) <> Panic.
Proof. intros E f s C1 C2 C3 C4 C5 C6 C7 W Hp Hn Hf. exact (proj2 (epoch_no_panic E C1 C5 C2 C3 C6 C4 C7 f s W Hp) Hn Hf). Qed.
(** empty slots inside an epoch always succeed, and leave a state within the same bounds *)
Theorem C74_slots_inside : forall (E : Env) (f : Fork) (s : BeaconState) (target : N),
  ctx_sane E -> mainnet_scale E -> hashing_total E -> within_bounds E f s ->
  slot s < target -> target / SLOTS_PER_EPOCH E = epoch_of E s -> target < 2 ^ 56 ->
  exists t, process_slots E f target s = (Ok tt, t) /\ within_bounds E f t /\ slot t = target.
Proof.
  intros E f s target C1 C5 C6 W Hlt He Hb.
  assert (Ht : target < epoch_start_after E s).
  { unfold epoch_start_after. rewrite <- He. assert (Hsp : SLOTS_PER_EPOCH E <> 0) by (unfold ctx_sane in C1; lia).
    pose proof (N.div_mod target _ Hsp). pose proof (N.mod_lt target _ Hsp). lia. }
  destruct (loop_inside E C1 C6 f target (N.to_nat (target - slot s)) s W ltac:(lia) Ht Hb) as (t & H1 & H2 & H3 & _).
  exists t. split; [|auto]. rewrite process_slots_loop by assumption. exact H1.
Qed.
(** empty slots up to the start of the next epoch *)
Theorem C74_slots_boundary : forall (E : Env) (f : Fork) (s : BeaconState) (target : N),
  ctx_sane E -> ctx_sane_electra E -> ctx_sane_epoch E -> ctx_sane_att E -> mainnet_scale E -> hashing_total E -> hash_wf (hash E) ->
  within_bounds E f s -> target = (epoch_of E s + 1) * SLOTS_PER_EPOCH E -> target < 2 ^ 56 ->
  (f = Phase0 \/ epoch_ends_period E s (EPOCHS_PER_SYNC_COMMITTEE_PERIOD E) = false -> fst (process_slots E f target s) = Ok tt)
  /\ (active_set s (epoch_of E s + 1) <> [] -> N.of_nat (fuel E) < 2 ^ 60 -> fst (process_slots E f target s) <> Panic).
Proof.
  intros E f s target C1 C2 C3 C4 C5 C6 C7 W Ht Hb.
  assert (Hsp : SLOTS_PER_EPOCH E <> 0) by (unfold ctx_sane in C1; lia).
  assert (Hlt : slot s < target).
  { subst target. pose proof (N.div_mod (slot s) _ Hsp). pose proof (N.mod_lt (slot s) _ Hsp). unfold epoch_of. lia. }
  change (target = epoch_start_after E s) in Ht. rewrite process_slots_loop by assumption.
  destruct (N.to_nat (target - slot s)) as [|n] eqn:Hn; [lia|].
  destruct (loop_boundary E C1 C5 C6 f n s W ltac:(lia) ltac:(lia)) as (s1 & W1 & P1 & _ & E1 & V1 & H1). rewrite Ht, H1.
  destruct (epoch_no_panic E C1 C5 C2 C3 C6 C4 C7 f s1 W1 P1) as [A B].
  assert (Hp : epoch_ends_period E s1 (EPOCHS_PER_SYNC_COMMITTEE_PERIOD E) = epoch_ends_period E s (EPOCHS_PER_SYNC_COMMITTEE_PERIOD E)) by (unfold epoch_ends_period; rewrite E1; reflexivity).
  split.
  - intros Hd. rewrite <- Hp in Hd. specialize (A Hd). destruct (process_epoch E f s1) as [[[]| | |] t]; cbn [fst] in *; congruence.
  - intros Hne Hf. assert (Ha : active_set s1 (epoch_of E s1 + 1) = active_set s (epoch_of E s + 1)) by (unfold active_set; rewrite E1, V1; reflexivity).
    rewrite Ha in B. specialize (B Hne Hf). destruct (process_epoch E f s1) as [[[]| | |] t]; cbn [fst] in *; congruence.
Qed.

(** every shipped network and the configuration of the examples have the required scale *)
Theorem C74_networks : mainnet_scale ctx_mainnet /\ mainnet_scale ctx_minimal /\ mainnet_scale ctx_goerli /\ mainnet_scale ctx_sepolia
  /\ mainnet_scale ctx_holesky /\ mainnet_scale ctx_hoodi.
Proof. repeat split; vm_compute; congruence. Qed.

(** *** Examples: states of three forks within the bounds *)
Lemma tiny_scale : mainnet_scale tiny. Proof. repeat split; vm_compute; congruence. Qed.
Lemma tiny_hashing : hashing_total tiny. Proof. intros o. change (toy_htr o <> None). unfold toy_htr. discriminate. Qed.
Lemma epoch_toy_within : within_bounds tiny Deneb epoch_toy.
Proof.
  constructor.
  - exact epoch_toy_shape.
  - vm_compute. reflexivity.
  - split; [reflexivity|]. intros _. repeat split; reflexivity.
  - apply (all_of (fun v => v_effective_balance v <=? MAX_EFFECTIVE_BALANCE tiny)); [intros x Hx; apply N.leb_le; exact Hx|vm_compute; reflexivity].
  - vm_compute. reflexivity.
  - vm_compute. discriminate.
  - apply (all_of (fun x => x <? 2 ^ 22)); [intros x Hx; apply N.ltb_lt; exact Hx|vm_compute; reflexivity].
  - vm_compute. reflexivity.
  - vm_compute. reflexivity.
  - exact epoch_toy_exits.
  - vm_compute. repeat split; discriminate.
  - discriminate.
  - discriminate.
Qed.
Lemma votes_toy_within : within_bounds tiny Phase0 votes_toy.
Proof.
  constructor.
  - exact (tiny_shape 8 15 ltac:(vm_compute; discriminate)).
  - vm_compute. reflexivity.
  - split; [reflexivity|]. intros H. contradiction.
  - apply (all_of (fun v => v_effective_balance v <=? MAX_EFFECTIVE_BALANCE tiny)); [intros x Hx; apply N.leb_le; exact Hx|vm_compute; reflexivity].
  - vm_compute. reflexivity.
  - vm_compute. discriminate.
  - apply (all_of (fun x => x <? 2 ^ 22)); [intros x Hx; apply N.ltb_lt; exact Hx|vm_compute; reflexivity].
  - vm_compute. reflexivity.
  - vm_compute. reflexivity.
  - refine (all_of (fun v => v_exit_epoch v =? FAR_FUTURE_EPOCH) (fun v => v_exit_epoch v <> FAR_FUTURE_EPOCH -> v_exit_epoch v < 2 ^ 61) (validators votes_toy) _ _); [|vm_compute; reflexivity].
    intros v Hv Hne. apply N.eqb_eq in Hv. contradiction.
  - vm_compute. repeat split; discriminate.
  - discriminate.
  - intros _. split; [exact votes_toy_sound|]. split; [intros a []|vm_compute; reflexivity].
Qed.
(** the same registry in electra, with a pending deposit and a consolidation *)
Definition electra_toy : BeaconState :=
  set_pending_balance_deposits [mkPBD 3 5000000000] (set_pending_consolidations [mkPC 0 4] (set_slot 11 epoch_toy)).
Lemma electra_toy_within : within_bounds tiny Electra electra_toy.
Proof.
  constructor.
  - unfold state_shape. vm_compute. repeat split; congruence.
  - vm_compute. reflexivity.
  - split; [reflexivity|]. intros _. repeat split; reflexivity.
  - apply (all_of (fun v => v_effective_balance v <=? MAX_EFFECTIVE_BALANCE_ELECTRA tiny)); [intros x Hx; apply N.leb_le; exact Hx|vm_compute; reflexivity].
  - vm_compute. reflexivity.
  - vm_compute. discriminate.
  - apply (all_of (fun x => x <? 2 ^ 22)); [intros x Hx; apply N.ltb_lt; exact Hx|vm_compute; reflexivity].
  - vm_compute. reflexivity.
  - vm_compute. reflexivity.
  - vm_compute. repeat split; reflexivity.
  - vm_compute. repeat split; discriminate.
  - intros _. split; [intros d [<-|[]]; vm_compute; reflexivity|]. split; [vm_compute; reflexivity|].
    intros c [<-|[]]. split; vm_compute; reflexivity.
  - discriminate.
Qed.
Example C74_example : (ctx_sane tiny /\ ctx_sane_electra tiny /\ ctx_sane_epoch tiny /\ ctx_sane_att tiny /\ mainnet_scale tiny /\ hashing_total tiny /\ hash_wf (hash tiny))
  /\ (within_bounds tiny Deneb epoch_toy /\ 0 < slot epoch_toy mod SLOTS_PER_EPOCH tiny /\ active_set epoch_toy (epoch_of tiny epoch_toy + 1) = [0; 1; 4] /\ N.of_nat (fuel tiny) < 2 ^ 60)
  /\ (within_bounds tiny Phase0 votes_toy /\ 0 < slot votes_toy mod SLOTS_PER_EPOCH tiny)
  /\ (within_bounds tiny Electra electra_toy /\ 0 < slot electra_toy mod SLOTS_PER_EPOCH tiny /\ epoch_ends_period tiny electra_toy (EPOCHS_PER_SYNC_COMMITTEE_PERIOD tiny) = false).
Proof.
  split; [split; [exact tiny_sane|]; split; [exact tiny_sane_electra|]; split; [exact tiny_sane_epoch|]; split; [exact tiny_sane_att|];
          split; [exact tiny_scale|]; split; [exact tiny_hashing|exact toy_hash_wf]|].
  split; [split; [exact epoch_toy_within|]; repeat split; vm_compute; reflexivity|].
  split; [split; [exact votes_toy_within|vm_compute; reflexivity]|].
  split; [exact electra_toy_within|]. split; vm_compute; reflexivity.
Qed.

(** ** A state of realistic size on which electra epoch processing does panic

    The numerator of the correlation penalty is the effective balance in increments times the (tripled) recent slashings. With the
    2048 ETH cap of electra the product leaves 64 bits when the tripled slashings exceed 9 million ETH; with the 32 ETH cap of the
    earlier forks 576 million would be needed. *)
Theorem C74_correlation_overflow : forall (E : Env) (f : Fork) (s : BeaconState) (i : N) (v : Validator),
  ctx_sane E -> chk E = true -> slot_small s -> lenN (balances s) = lenN (validators s) ->
  active_balance_fits E s -> sumN (slashings s) * correlation_multiplier E f < 2 ^ 64 -> sumN (slashings s) < 2 ^ 64 ->
  nthN (validators s) i = Some v -> halfway E s v = true ->
  2 ^ 64 <= v_effective_balance v / EFFECTIVE_BALANCE_INCREMENT E * slashed_share E f s ->
  fst (process_slashings E f s) = Panic.
Proof. intros E f s i v C1 C2 H1 H2 H3 H4 H5 H6 H7 H8. exact (slashings_overflow E f s i v C1 C2 H1 H2 H3 H4 H5 H6 H7 H8). Qed.

Definition whale (sl : bool) (ex wd : N) : Validator := mkValidator (toy_pk 0) (2 :: repeat 0 31) 2048000000000 sl 0 0 ex wd.
(** [1 + n] validators of 2048 ETH; the first was slashed and is halfway to its withdrawable epoch *)
Definition whales (n : N) (sl : list N) : BeaconState :=
  set_validators (whale true 5 7 :: repeatN (whale false FAR_FUTURE_EPOCH FAR_FUTURE_EPOCH) n)
  (set_balances (repeatN 2048000000000 (1 + n)) (set_slashings sl (set_inactivity_scores (repeatN 0 (1 + n))
  (set_previous_epoch_participation (repeatN 0 (1 + n)) (set_current_epoch_participation (repeatN 0 (1 + n)) (tiny_state 0 15)))))).
Lemma lenN_repeatN {A} (a : A) n : lenN (repeatN a n) = n.
Proof. unfold lenN, repeatN. rewrite repeat_length. lia. Qed.
Lemma sum_repeatN {A} (g : A -> N) (a : A) n : sumN (map g (repeatN a n)) = n * g a.
Proof.
  unfold repeatN. rewrite <- (N2Nat.id n) at 2. induction (N.to_nat n) as [|k IH]; [reflexivity|].
  cbn [repeat map]. unfold sumN in *. cbn [fold_right]. rewrite IH. lia.
Qed.
Lemma whales_stake n sl : registered_stake (whales n sl) = (1 + n) * 2048000000000.
Proof.
  unfold registered_stake, whales. cbn [validators set_validators map]. unfold sumN at 1. cbn [fold_right].
  fold (sumN (map v_effective_balance (repeatN (whale false FAR_FUTURE_EPOCH FAR_FUTURE_EPOCH) n))). rewrite sum_repeatN. cbn [v_effective_balance whale]. lia.
Qed.
Lemma whales_active n sl e : 0 <= e < 5 -> effective_sum (whales n sl) (active_set (whales n sl) e) = (1 + n) * 2048000000000.
Proof.
  intros He. assert (Hall : active_set (whales n sl) e = rangeN (lenN (validators (whales n sl)))).
  { unfold active_set, indices_where.
    assert (Hin : forall l, (forall i, In i l -> i < lenN (validators (whales n sl))) ->
      filter (fun i => match nthN (validators (whales n sl)) i with Some x => active_at e x | None => false end) l = l).
    2:{ apply Hin. intros i Hi. apply In_rangeN. exact Hi. }
    induction l as [|i l IH]; intros Hl; [reflexivity|]. cbn [filter]. rewrite IH by (intros k Hk; apply Hl; right; exact Hk).
    destruct (nthN_lt _ i (Hl i (or_introl eq_refl))) as [v Hv]. rewrite Hv. apply nthN_In in Hv.
    assert (Ha : active_at e v = true); [|rewrite Ha; reflexivity].
    destruct Hv as [Hv|Hv]; [subst v|apply repeat_spec in Hv; subst v]; unfold active_at; cbn [v_activation_epoch v_exit_epoch whale];
      apply andb_true_iff; split; [apply N.leb_le|apply N.ltb_lt|apply N.leb_le|apply N.ltb_lt]; unfold whale; cbn [v_activation_epoch v_exit_epoch]; unfold FAR_FUTURE_EPOCH; pows; lia. }
  rewrite Hall. unfold effective_sum. rewrite sum_range_validators. exact (whales_stake n sl).
Qed.
Lemma whales_all n sl (P : Validator -> Prop) : P (whale true 5 7) -> P (whale false FAR_FUTURE_EPOCH FAR_FUTURE_EPOCH) -> forall v, In v (validators (whales n sl)) -> P v.
Proof. intros H1 H2 v [<-|Hv]; [exact H1|]. apply repeat_spec in Hv. subst v. exact H2. Qed.
Lemma whales_len n sl : lenN (validators (whales n sl)) = 1 + n.
Proof. unfold whales. cbn [validators set_validators]. rewrite lenN_cons, lenN_repeatN. lia. Qed.
Lemma whales_within n sl : n <= 60000 -> lenN sl = 8 -> sumN sl < 2 ^ 50 -> within_bounds tiny Electra (whales n sl).
Proof.
  intros Hn Hl Hsl. assert (He : epoch_of tiny (whales n sl) = 3) by reflexivity. pose proof (whales_stake n sl) as Hst. pose proof (whales_len n sl) as Hlen.
  assert (Hab : effective_sum (whales n sl) (active_set (whales n sl) (epoch_of tiny (whales n sl))) = (1 + n) * 2048000000000) by (rewrite He; apply whales_active; lia).
  constructor.
  - repeat split; [exact Hl|]. rewrite Hlen. pows. lia.
  - vm_compute. reflexivity.
  - split; [rewrite Hlen; apply lenN_repeatN|]. intros _. rewrite Hlen. repeat split; apply lenN_repeatN.
  - apply (whales_all n sl (fun v => v_effective_balance v <= MAX_EFFECTIVE_BALANCE_ELECTRA tiny)); vm_compute; discriminate.
  - rewrite Hst. pows. lia.
  - unfold active_balance. rewrite Hab. change (prev_epoch_of tiny (whales n sl)) with 2. rewrite whales_active by lia. lia.
  - intros x Hx. apply repeat_spec in Hx. subst x. vm_compute. reflexivity.
  - exact Hsl.
  - unfold held. change (queue_total (pending_balance_deposits (whales n sl))) with 0.
    change (balances (whales n sl)) with (repeatN 2048000000000 (1 + n)). pose proof (sum_repeatN (fun x => x) 2048000000000 (1 + n)) as Hr. rewrite map_id in Hr. rewrite Hr. pows. lia.
  - unfold registry_room, exit_room. split; [unfold active_balance_fits; rewrite Hab; pows; lia|]. split; [vm_compute; reflexivity|].
    change (exit_queue_start tiny (whales n sl)) with 8. unfold staying.
    assert (Hle : sumN (map v_effective_balance (filter (fun v => v_exit_epoch v =? FAR_FUTURE_EPOCH) (validators (whales n sl)))) <= registered_stake (whales n sl)).
    { clear. unfold registered_stake. generalize (validators (whales n sl)). induction l as [|v l IH]; [cbn; lia|]. cbn [filter map]. unfold sumN in *. destruct (v_exit_epoch v =? _); cbn [map fold_right]; lia. }
    pows. lia.
  - vm_compute. repeat split; discriminate.
  - intros _. split; [intros d []|]. split; [vm_compute; reflexivity|intros c []].
  - discriminate.
Qed.

(** within all the bounds but the one on slashings, of which there are 4 million ETH: the checked build panics *)
Theorem C74_electra_slashings_panic : exists n sl,
  within_bounds tiny Electra (whales n (repeatN 0 8)) /\ sumN sl = 4000000 * 1000000000 /\ lenN sl = 8 /\ n = 4999
  /\ fst (process_slashings tiny Electra (whales n sl)) = Panic.
Proof.
  exists 4999, [0; 4000000000000000; 0; 0; 0; 0; 0; 0].
  split; [apply whales_within; [lia|reflexivity|vm_compute; reflexivity]|]. split; [reflexivity|]. split; [reflexivity|]. split; [reflexivity|].
  set (sl := [0; 4000000000000000; 0; 0; 0; 0; 0; 0]). pose proof (whales_len 4999 sl) as Hlen.
  assert (Hab : effective_sum (whales 4999 sl) (active_set (whales 4999 sl) (epoch_of tiny (whales 4999 sl))) = (1 + 4999) * 2048000000000) by (apply (whales_active 4999 sl 3); lia).
  apply (C74_correlation_overflow tiny Electra (whales 4999 sl) 0 (whale true 5 7)).
  - exact tiny_sane.
  - reflexivity.
  - vm_compute. reflexivity.
  - rewrite Hlen. apply lenN_repeatN.
  - unfold active_balance_fits. rewrite Hab. vm_compute. reflexivity.
  - vm_compute. reflexivity.
  - vm_compute. reflexivity.
  - reflexivity.
  - vm_compute. reflexivity.
  - unfold slashed_share, active_balance. rewrite Hab. vm_compute. discriminate.
Qed.

Print Assumptions C74_epoch_ok.
Print Assumptions C74_epoch_no_panic.
Print Assumptions C74_slots_inside.
Print Assumptions C74_slots_boundary.
Print Assumptions C74_networks.
Print Assumptions C74_correlation_overflow.
Print Assumptions C74_electra_slashings_panic.
