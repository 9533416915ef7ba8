(** * Proofs that epoch processing succeeds on states of realistic size (proof file; no model definitions) *)
From Verif Require Import Base BaseLemmas Types Ctx Env Helpers HelpersAltair HelpersElectra Block Epoch Transition StLemmas
  SpecCommon SpecShuffle SpecHelpers SpecElectra SpecOps SpecBlock SpecAtt SpecFinality SpecSlots SpecEpoch SpecRegistry SpecQueues SpecPhase0 SpecTotal
  ShuffleProofs HelperProofs HelperProofs2 OpsProofs ElectraProofs AttProofs FinalityProofs EpochProofs RegistryProofs RewardProofs PeriodicProofs QueueProofs SlotProofs Phase0Proofs
  PropsFinality PropsEpoch PropsQueues PropsPhase0.

Lemma nthN_ext_len {A} (l k : list A) : lenN l = lenN k -> (forall i x, nthN k i = Some x -> nthN l i = Some x) -> l = k.
Proof.
  intros Hl H. apply nthN_ext. intros i. destruct (nthN k i) as [x|] eqn:Hk; [auto|]. apply nthN_none in Hk. apply nthN_none. lia.
Qed.
Lemma sumN_le_nth l : forall k, lenN k = lenN l -> (forall i x y, nthN l i = Some x -> nthN k i = Some y -> y <= x) -> sumN k <= sumN l.
Proof.
  induction l as [|x l IH]; intros [|y k] Hl H; rewrite ?lenN_cons, ?lenN_nil in Hl; try lia; rewrite !sumN_cons.
  assert (y <= x) by (apply (H 0); reflexivity).
  assert (sumN k <= sumN l); [|lia]. apply IH; [lia|]. intros i a b Ha Hb. apply (H (i + 1)).
  - rewrite nthN_nth_error in *. replace (N.to_nat (i + 1)) with (S (N.to_nat i)) by lia. exact Ha.
  - rewrite nthN_nth_error in *. replace (N.to_nat (i + 1)) with (S (N.to_nat i)) by lia. exact Hb.
Qed.
Lemma sumN_In x l : In x l -> x <= sumN l.
Proof. induction l as [|y l IH]; intros []; rewrite sumN_cons; [lia|]. specialize (IH H). lia. Qed.
Lemma sumN_zip_add l : forall k, lenN k = lenN l -> sumN (map (fun p => fst p + snd p) (combine l k)) = sumN l + sumN k.
Proof.
  induction l as [|x l IH]; intros [|y k] Hl; rewrite ?lenN_cons, ?lenN_nil in Hl; try lia; [reflexivity|].
  cbn [combine map fst snd]. rewrite !sumN_cons, IH by lia. lia.
Qed.
Lemma nthN_zip_add l : forall k i x y, nthN l i = Some x -> nthN k i = Some y -> nthN (map (fun p => fst p + snd p) (combine l k)) i = Some (x + y).
Proof.
  intros k i x y. rewrite !nthN_nth_error. generalize (N.to_nat i) as n. clear i. revert k.
  induction l as [|a l IH]; intros [|b k] n Hx Hy; try (destruct n; discriminate). destruct n as [|n]; cbn in *; [congruence|]. apply IH; assumption.
Qed.

Section T.
Variable E : Env.
Hypothesis Hctx : ctx_sane E.
Hypothesis Hm : mainnet_scale E.

Lemma inc_val : EFFECTIVE_BALANCE_INCREMENT E = 1000000000. Proof. apply Hm. Qed.
Lemma effective_le_stake s i : effective_balance_of s i <= registered_stake s.
Proof.
  unfold effective_balance_of, registered_stake. destruct (nthN (validators s) i) as [v|] eqn:Hv; [|lia].
  apply sumN_In. apply in_map. exact (nthN_In _ _ _ Hv).
Qed.
Lemma active_sum_le s e : effective_sum s (active_set s e) <= registered_stake s.
Proof. apply effective_sum_le; [apply NoDup_indices_where|apply active_in_range]. Qed.
Lemma active_balance_bounds s : registered_stake s < 2 ^ 57 -> 1000000000 <= active_balance E s < 2 ^ 57.
Proof. intros H. pose proof (active_sum_le s (epoch_of E s)). unfold active_balance. rewrite inc_val. pows. lia. Qed.
Lemma flag_stake_le s k : flag_stake E s k <= N.max (effective_sum s (active_set s (prev_epoch_of E s))) 1000000000.
Proof.
  unfold flag_stake. rewrite inc_val. apply N.max_le_compat_r. unfold effective_sum. apply NoDup_sum_le.
  - apply NoDup_filter. apply NoDup_rangeN.
  - intros i Hi. apply filter_In in Hi as [Hi Hv]. unfold active_set, indices_where. apply filter_In. split; [exact Hi|].
    unfold voted_flag in Hv. destruct (nthN (validators s) i) as [v|]; [|discriminate]. destruct (nthN (previous_epoch_participation s) i); [|discriminate].
    apply andb_true_iff in Hv as [Hv _]. apply andb_true_iff in Hv as [Hv _]. exact Hv.
Qed.
(** the base reward per increment is at most 2023907 Gwei *)
Lemma per_increment_le s : registered_stake s < 2 ^ 57 -> EFFECTIVE_BALANCE_INCREMENT E * BASE_REWARD_FACTOR E / N.sqrt (active_balance E s) <= 2023907.
Proof.
  intros H. pose proof (active_balance_bounds s H) as [Hb _]. rewrite inc_val.
  assert (H1 : N.sqrt 1000000000 <= N.sqrt (active_balance E s)) by (apply N.sqrt_le_mono; exact Hb).
  change (N.sqrt 1000000000) with 31622 in H1.
  assert (H2 : BASE_REWARD_FACTOR E <= 64) by apply Hm.
  assert (H3 : 1000000000 * BASE_REWARD_FACTOR E / N.sqrt (active_balance E s) <= 64000000000 / 31622).
  { eapply N.le_trans; [apply N.div_le_mono; [lia|]; apply (N.mul_le_mono_l _ 64); exact H2|]. apply N.div_le_compat_l. lia. }
  change (64000000000 / 31622) with 2023907 in H3. exact H3.
Qed.
Lemma base_reward_le s i : registered_stake s < 2 ^ 57 -> base_reward E s i <= effective_balance_of s i / 1000000000 * 2023907.
Proof. intros H. unfold base_reward. rewrite inc_val at 1. apply N.mul_le_mono_l. apply per_increment_le. exact H. Qed.
Lemma flag_weight_le k : flag_weight k <= 26. Proof. unfold flag_weight. destruct (k =? 1); lia. Qed.
Lemma flag_gain_le s k i : registered_stake s < 2 ^ 57 -> effective_sum s (active_set s (prev_epoch_of E s)) <= 2 * active_balance E s ->
  flag_gain E s k i <= base_reward E s i * 3.
Proof.
  intros H Ht. unfold flag_gain. destruct (eligible_at E s i && voted_flag E s k i && negb (leaking E s)); [|lia].
  pose proof (active_balance_bounds s H) as [Hb _]. pose proof (flag_stake_le s k) as Hf. rewrite inc_val.
  set (T := active_balance E s) in *. set (F := flag_stake E s k) in *. set (B := base_reward E s i).
  assert (Hq : 1 <= T / 1000000000) by (apply (N.div_le_lower_bound T 1000000000 1); lia).
  assert (Hr : F / 1000000000 <= 3 * (T / 1000000000)) by (apply N.lt_succ_r; apply N.div_lt_upper_bound; [lia|]; lia).
  pose proof (flag_weight_le k) as Hw.
  apply N.div_le_upper_bound; [lia|].
  assert (B * flag_weight k * (F / 1000000000) <= B * 26 * (3 * (T / 1000000000))) by (apply N.mul_le_mono; [apply N.mul_le_mono_l; exact Hw|exact Hr]).
  nia.
Qed.
Definition cap (f : Fork) : N := match f with Electra => MAX_EFFECTIVE_BALANCE_ELECTRA E | _ => MAX_EFFECTIVE_BALANCE E end.
Lemma cap_le f : cap f <= 2048000000000. Proof. unfold cap. destruct f; unfold mainnet_scale in Hm; lia. Qed.
Lemma eff_of_le f s i : (forall v, In v (validators s) -> v_effective_balance v <= cap f) -> effective_balance_of s i <= cap f.
Proof. intros H. unfold effective_balance_of. destruct (nthN (validators s) i) as [v|] eqn:Hv; [|lia]. exact (H v (nthN_In _ _ _ Hv)). Qed.

Lemma rewards_fit_scale f s : (forall v, In v (validators s) -> v_effective_balance v <= cap f) -> registered_stake s < 2 ^ 57 ->
  effective_sum s (active_set s (prev_epoch_of E s)) <= 2 * active_balance E s ->
  (forall x, In x (inactivity_scores s) -> x < 2 ^ 23) -> (forall b, In b (balances s) -> b < 2 ^ 61) -> rewards_fit E f s.
Proof.
  intros He Hs Ht Hx Hb. pose proof (active_balance_bounds s Hs) as [HT1 HT2]. pose proof (cap_le f) as Hcap. unfold rewards_fit. rewrite inc_val.
  split. { assert (active_balance E s / 1000000000 <= 2 ^ 57) by (apply N.div_le_upper_bound; [lia|]; pows; lia). pows. lia. }
  split. { unfold leak_quotient. unfold mainnet_scale in Hm. pows. destruct f; nia. }
  split.
  { intros i k Hi Hk. pose proof (base_reward_le s i Hs) as H1. pose proof (eff_of_le f s i He) as H2. pose proof (flag_weight_le k) as H3. pose proof (flag_stake_le s k) as H4.
    pose proof (active_sum_le s (prev_epoch_of E s)) as H5.
    assert (H6 : flag_stake E s k / 1000000000 <= 144115188) by (apply N.lt_succ_r; apply N.div_lt_upper_bound; [lia|]; pows; lia).
    assert (H7 : effective_balance_of s i / 1000000000 <= 2048) by (apply N.lt_succ_r; apply N.div_lt_upper_bound; [lia|]; lia).
    assert (H8 : base_reward E s i <= 2048 * 2023907) by lia.
    assert (base_reward E s i * flag_weight k * (flag_stake E s k / 1000000000) <= 2048 * 2023907 * 26 * 144115188) by (apply N.mul_le_mono; [apply N.mul_le_mono; [exact H8|exact H3]|exact H6]).
    pows. lia. }
  split.
  { intros i Hi. pose proof (eff_of_le f s i He) as H2. destruct (nthN (inactivity_scores s) i) as [x|] eqn:Hn; [|pows; lia].
    specialize (Hx x (nthN_In _ _ _ Hn)). assert (effective_balance_of s i * x <= 2048000000000 * 2 ^ 23) by (apply N.mul_le_mono; lia). pows. lia. }
  intros i b Hn. specialize (Hb b (nthN_In _ _ _ Hn)). pose proof (base_reward_le s i Hs) as H1. pose proof (eff_of_le f s i He) as H2.
  assert (H7 : effective_balance_of s i / 1000000000 <= 2048) by (apply N.lt_succ_r; apply N.div_lt_upper_bound; [lia|]; lia).
  pose proof (flag_gain_le s 0 i Hs Ht). pose proof (flag_gain_le s 1 i Hs Ht). pose proof (flag_gain_le s 2 i Hs Ht). pows. lia.
Qed.
(** what an epoch pays is at most a fiftieth of the effective balance *)
Lemma after_rewards_le f s i b : registered_stake s < 2 ^ 57 -> effective_sum s (active_set s (prev_epoch_of E s)) <= 2 * active_balance E s ->
  balance_after_rewards E f s i b <= b + effective_balance_of s i.
Proof.
  intros Hs Ht. pose proof (base_reward_le s i Hs) as H1. pose proof (flag_gain_le s 0 i Hs Ht). pose proof (flag_gain_le s 1 i Hs Ht). pose proof (flag_gain_le s 2 i Hs Ht).
  unfold balance_after_rewards. assert (effective_balance_of s i / 1000000000 * 1000000000 <= effective_balance_of s i) by (rewrite N.mul_comm; apply N.mul_div_le; lia). lia.
Qed.
Lemma penalties_fit_scale f s : (forall v, In v (validators s) -> v_effective_balance v <= cap f) -> registered_stake s < 2 ^ 57 ->
  sumN (slashings s) < match f with Electra => 2 ^ 50 | _ => 2 ^ 62 end -> penalties_fit E f s.
Proof.
  intros He Hs Hsl. pose proof (active_balance_bounds s Hs) as [HT1 HT2].
  assert (Hmul : correlation_multiplier E f <= 3) by (unfold correlation_multiplier, mainnet_scale in *; destruct f; lia).
  assert (Hp : sumN (slashings s) * correlation_multiplier E f <= sumN (slashings s) * 3) by (apply N.mul_le_mono_l; exact Hmul).
  unfold penalties_fit. rewrite inc_val. split; [pows; destruct f; lia|]. split; [pows; destruct f; lia|].
  intros v Hv. specialize (He v Hv).
  assert (Hsh : slashed_share E f s <= match f with Electra => 3 * 2 ^ 50 | _ => 2 ^ 57 end) by (unfold slashed_share; destruct f; pows; lia).
  assert (Hq : v_effective_balance v / 1000000000 <= match f with Electra => 2048 | _ => 32 end).
  { apply N.lt_succ_r. apply N.div_lt_upper_bound; [lia|]. unfold cap, mainnet_scale in *. destruct f; lia. }
  pose proof (N.mul_le_mono _ _ _ _ Hq Hsh). destruct f; pows; lia.
Qed.

(** ** Transfer along changes of other fields *)
Lemma stake_ext vs s : lenN vs = lenN (validators s) -> (forall i v, nthN (validators s) i = Some v -> exists v', nthN vs i = Some v' /\ v_effective_balance v' = v_effective_balance v) ->
  map v_effective_balance vs = map v_effective_balance (validators s).
Proof.
  intros Hl H. apply nthN_ext_len; [rewrite !lenN_map; exact Hl|]. intros i x. rewrite !nthN_map. destruct (nthN (validators s) i) as [v|] eqn:Hv; [|discriminate].
  destruct (H i v Hv) as (v' & -> & He). cbn [option_map]. congruence.
Qed.
Lemma in_effective (p : N -> Prop) l k : map v_effective_balance l = map v_effective_balance k -> (forall v, In v k -> p (v_effective_balance v)) -> forall v, In v l -> p (v_effective_balance v).
Proof. intros He H v Hv. apply (in_map v_effective_balance) in Hv. rewrite He in Hv. apply in_map_iff in Hv as (w & <- & Hw). auto. Qed.

(** what the steps after the rewards need *)
Record mid (f : Fork) (s : BeaconState) : Prop := mkMid {
  md_shape : state_shape E s; md_slot : slot_small s; md_len : lenN (balances s) = lenN (validators s);
  md_eff : forall v, In v (validators s) -> v_effective_balance v <= cap f;
  md_stake : registered_stake s < 2 ^ 57;
  md_slash : sumN (slashings s) < match f with Electra => 2 ^ 50 | _ => 2 ^ 62 end;
  md_held : match f with Electra => held f s < 2 ^ 62 | _ => forall b, In b (balances s) -> b < 2 ^ 62 end;
  md_room : registry_room E f s;
  md_fin : cp_epoch (finalized_checkpoint s) <= prev_epoch_of E s;
  md_q : f = Electra -> (forall d, In d (pending_balance_deposits s) -> pbd_index d < lenN (balances s)) /\ deposit_balance_to_consume s < 2 ^ 62 /\ consolidations_sound s }.
Lemma held_bal f s b : held f s < 2 ^ 62 -> In b (balances s) -> b < 2 ^ 62.
Proof. intros H Hb. apply sumN_In in Hb. unfold held in H. lia. Qed.

(** ** The single steps *)
Hypothesis Hel : ctx_sane_electra E.
Hypothesis Hep : ctx_sane_epoch E.
Hypothesis Hhash : hashing_total E.

(** the schedule of every validator of [s] is the same in [t] *)
Definition same_schedule (s t : BeaconState) : Prop :=
  lenN (validators t) = lenN (validators s)
  /\ forall i v, nthN (validators s) i = Some v -> exists v', nthN (validators t) i = Some v' /\ v_activation_epoch v' = v_activation_epoch v /\ v_exit_epoch v' = v_exit_epoch v.
Lemma schedule_refl s : same_schedule s s. Proof. split; [reflexivity|]. intros i v Hv. exists v. auto. Qed.
Lemma schedule_trans a b c : same_schedule a b -> same_schedule b c -> same_schedule a c.
Proof.
  intros [L1 H1] [L2 H2]. split; [congruence|]. intros i v Hv. destruct (H1 i v Hv) as (v' & Hv' & A & B). destruct (H2 i v' Hv') as (w & Hw & C & D). exists w. split; [exact Hw|]. split; congruence.
Qed.
Lemma historical_ok f s : slot_small s ->
  exists t, process_historical_update E f s = (Ok tt, t) /\ (t = s \/ (exists x, t = set_historical_summaries x s) \/ exists x, t = set_historical_roots x s).
Proof.
  intros Hs. assert (Hspe : SLOTS_PER_EPOCH E <> 0) by (unfold ctx_sane in Hctx; lia).
  assert (Hper : SLOTS_PER_HISTORICAL_ROOT E / SLOTS_PER_EPOCH E <> 0).
  { destruct Hep as (_&_&_&_&_&H6). assert (1 <= SLOTS_PER_HISTORICAL_ROOT E / SLOTS_PER_EPOCH E) by (apply N.div_le_lower_bound; lia). lia. }
  unfold process_historical_update.
  assert (Hd : exists o, historical_summary_due E s = Ok o).
  { unfold historical_summary_due. rewrite next_epoch_ok by assumption. cbn [rbind]. rewrite udiv_ok by exact Hspe. cbn [rbind]. rewrite umod_ok by exact Hper. cbn [rbind].
    destruct (_ =? 0); [|eauto]. unfold htr_r. pose proof (Hhash (ORoots (block_roots s))). pose proof (Hhash (ORoots (state_roots s))).
    destruct (htr E (ORoots (block_roots s))); [|contradiction]. destruct (htr E (ORoots (state_roots s))); [|contradiction]. cbn [ok_or rbind]. eauto. }
  destruct Hd as [o Ho]. rewrite (run_rd _ _ _ o) by exact Ho. destruct o as [h|]; [|eexists; split; [reflexivity|auto]].
  destruct (fork_le Capella f); [eexists; split; [reflexivity|eauto]|].
  pose proof (Hhash (OHistoricalSummary h)). destruct (htr E (OHistoricalSummary h)) as [r|] eqn:Hr; [|contradiction].
  rewrite (run_lift _ _ _ r) by (unfold htr_r; rewrite Hr; reflexivity). eexists; split; [reflexivity|eauto].
Qed.

(** from the effective balances on *)
Definition epoch_end (f : Fork) : St BeaconState unit :=
  process_effective_balance_updates E f ;; process_slashings_reset E ;; process_randao_mixes_reset E ;; process_historical_update E f ;;
  (match f with
   | Phase0 => process_participation_record_updates
   | _ => process_participation_flag_updates ;; process_sync_committee_updates E
   end).
Lemma end_run f s : state_shape E s -> slot_small s -> lenN (balances s) = lenN (validators s) -> effective_bounded s -> (forall b, In b (balances s) -> b < 2 ^ 62) ->
  exists t, state_shape E t /\ slot t = slot s /\ effective_bounded t /\ same_schedule s t
    /\ match f with
       | Phase0 => epoch_end f s = (Ok tt, t)
       | _ => epoch_end f s = process_sync_committee_updates E t
       end.
Proof.
  intros Hsh Hs Hl Heb Hb. destruct (C29_update E f s Hctx Hep Hl Heb Hb) as (vs & H1 & L1 & N1).
  unfold epoch_end. rewrite (run_bind _ _ _ _ _ H1). set (s1 := set_validators vs s).
  assert (Hsh1 : state_shape E s1) by (unfold state_shape in *; unfold s1; gs; rewrite L1; exact Hsh).
  rewrite (run_bind _ _ _ _ _ (slashings_reset_run E Hctx s1 Hs Hsh1)). set (s2 := set_slashings _ s1).
  assert (Hsh2 : state_shape E s2) by (unfold state_shape in *; unfold s2; gs; rewrite lenN_updN; exact Hsh1).
  destruct (randao_reset_run E Hctx s2 Hs Hsh2) as (m & _ & H3). rewrite (run_bind _ _ _ _ _ H3). set (s3 := set_randao_mixes _ s2).
  assert (Hsh3 : state_shape E s3) by (unfold state_shape in *; unfold s3; gs; rewrite lenN_updN; exact Hsh2).
  destruct (historical_ok f s3 Hs) as (s4 & H4 & D4). rewrite (run_bind _ _ _ _ _ H4).
  assert (F4 : state_shape E s4 /\ slot s4 = slot s /\ validators s4 = vs).
  { destruct D4 as [->|[[x ->]|[x ->]]]; (split; [exact Hsh3|]); split; reflexivity. }
  destruct F4 as (A & B & C).
  assert (Hvs : forall i v, nthN (validators s) i = Some v -> exists e, e <= 2 ^ 44 /\ nthN vs i = Some (set_v_effective_balance e v)).
  { intros i v Hv. assert (Hi : i < lenN (balances s)) by (rewrite Hl; exact (nthN_some _ _ _ Hv)). destruct (nthN_lt _ _ Hi) as [b Hbi]. eexists. split; [|exact (N1 i v b Hv Hbi)].
    unfold next_effective. pose proof (Heb v (nthN_In _ _ _ Hv)). destruct (left_band _ _ _); [|assumption].
    assert (balance_cap E f v <= 2 ^ 44); [|lia]. unfold balance_cap. unfold ctx_sane, ctx_sane_electra in *. pows. destruct f; try lia. destruct (kind_is 2 v); lia. }
  assert (Heb4 : forall v, In v vs -> v_effective_balance v <= 2 ^ 44).
  { intros v Hv. apply In_nthN in Hv as [i Hv]. assert (Hi : i < lenN (validators s)) by (rewrite <- L1; exact (nthN_some _ _ _ Hv)). destruct (nthN_lt _ _ Hi) as [w Hw].
    destruct (Hvs i w Hw) as (e & He & Hn). rewrite Hv in Hn. injection Hn as ->. exact He. }
  assert (Hsc : same_schedule s s4).
  { split; [rewrite C; exact L1|]. intros i v Hv. destruct (Hvs i v Hv) as (e & _ & Hn). rewrite C. eexists. split; [exact Hn|]. split; reflexivity. }
  destruct (Fork_eq_dec f Phase0) as [->|Hf].
  - set (t := set_current_epoch_attestations [] (set_previous_epoch_attestations (current_epoch_attestations s4) s4)).
    exists t. split; [exact A|]. split; [exact B|]. split; [unfold effective_bounded, t; gs; rewrite C; exact Heb4|]. split; [exact Hsc|]. reflexivity.
  - set (t := set_current_epoch_participation (repeatN 0 (lenN (validators s4))) (set_previous_epoch_participation (current_epoch_participation s4) s4)).
    exists t. split; [exact A|]. split; [exact B|]. split; [unfold effective_bounded, t; gs; rewrite C; exact Heb4|]. split; [exact Hsc|].
    destruct f; try contradiction; reflexivity.
Qed.

(** the electra queues *)
Lemma bits_consolidated l : forall s, justification_bits (fold_left (consolidated E) l s) = justification_bits s.
Proof.
  induction l as [|c l IH]; intros s; [reflexivity|]. cbn [fold_left]. rewrite IH. unfold consolidated. destruct (nthN (validators s) _) as [v|]; [|reflexivity].
  destruct (v_slashed v); [reflexivity|]. cbv zeta. gs. rewrite (proj1 (compounded_frame E s _)). reflexivity.
Qed.
Lemma queues_run s : slot_small s -> queue_sound s -> registered_stake s < 2 ^ 57 -> deposit_balance_to_consume s < 2 ^ 62 -> consolidations_sound s ->
  exists t, (process_pending_balance_deposits E ;; process_pending_consolidations E) s = (Ok tt, t) /\ same_periodic s t /\ same_schedule s t
    /\ map v_effective_balance (validators t) = map v_effective_balance (validators s) /\ lenN (balances t) = lenN (balances s)
    /\ total_stake t = total_stake s /\ justification_bits t = justification_bits s.
Proof.
  intros Hs Hq Hst Hd Hc. assert (Hab : active_balance_fits E s). { unfold active_balance_fits. pose proof (active_sum_le s (epoch_of E s)). pows. lia. }
  destruct (C50_pending_deposits E s Hctx Hel Hs Hab Hq Hd) as (k & bs & _ & H1 & L1 & N1 & S1). cbv zeta in *.
  rewrite (run_bind _ _ _ _ _ H1). set (s1 := set_deposit_balance_to_consume _ _) in *.
  assert (Hq1 : queue_sound s1).
  { destruct Hq as (Q1 & Q2 & Q3). split; [unfold s1; gs; congruence|]. split; [|unfold s1; gs; rewrite S1; exact Q3].
    intros d Hin. unfold s1 in *. gs. rewrite L1. apply Q2. revert Hin. unfold s1. gs. intros Hin. rewrite <- (firstN_skipN k (pending_balance_deposits s)). apply in_or_app. right; exact Hin. }
  destruct (consolidations_run E Hctx s1 Hq1 Hc) as (j & _ & H2 & F2). rewrite H2. cbv zeta. set (s2 := fold_left _ _ _) in *.
  destruct F2 as (F1 & F2 & F3 & F4 & F5 & F6).
  exists (set_pending_consolidations (skipN j (pending_consolidations s1)) s2). split; [reflexivity|].
  split. { eapply sp_trans; [exact (pres_run _ _ _ _ (sp_pd E) H1)|exact (pres_run _ _ _ _ (sp_pc E) H2)]. }
  split. { split; [exact F2|]. intros i v Hv. destruct (F4 i v Hv) as (wc & Hw). eexists. split; [exact Hw|]. split; reflexivity. }
  split. { gs. apply (stake_ext _ s1); [exact F2|]. intros i v Hv. destruct (F4 i v Hv) as (wc & Hw). eexists. split; [exact Hw|reflexivity]. }
  split. { gs. rewrite F3. unfold s1. gs. exact L1. }
  split. { unfold total_stake in *. gs. rewrite F5. unfold s1. gs. exact S1. }
  gs. unfold s2. rewrite bits_consolidated. reflexivity.
Qed.

Definition epoch_rest (f : Fork) : St BeaconState unit :=
  process_registry_updates E f ;; process_slashings E f ;; process_eth1_data_reset E ;;
  swhen (fork_le Electra f) (process_pending_balance_deposits E ;; process_pending_consolidations E) ;; epoch_end f.
Lemma epoch_rest_eq f s : process_epoch E f s
  = (process_justification_and_finalization E f ;; swhen (fork_le Altair f) (process_inactivity_updates E) ;; process_rewards_and_penalties E f ;; epoch_rest f) s.
Proof. reflexivity. Qed.

(** a validator active in the next epoch before the registry step is so after it *)
Definition stays (e : N) (s t : BeaconState) : Prop := active_set s e <> [] -> active_set t e <> [].
Lemma schedule_stays e s t : same_schedule s t -> stays e s t.
Proof.
  intros [L H] Hne Ht. apply Hne. destruct (active_set s e) as [|i l] eqn:Ha; [reflexivity|]. exfalso.
  assert (Hi : In i (active_set s e)) by (rewrite Ha; left; reflexivity). unfold active_set, indices_where in Hi. apply filter_In in Hi as [Hi Hv].
  destruct (nthN (validators s) i) as [v|] eqn:Hn; [|discriminate]. destruct (H i v Hn) as (v' & Hn' & A & B).
  assert (Hi' : In i (active_set t e)). { unfold active_set, indices_where. apply filter_In. rewrite L, Hn'. split; [exact Hi|]. unfold active_at in *. rewrite A, B. exact Hv. }
  rewrite Ht in Hi'. contradiction.
Qed.
Lemma rest_run f s : mid f s ->
  exists t, state_shape E t /\ slot t = slot s /\ effective_bounded t /\ stays (epoch_of E s + 1) s t
    /\ match f with
       | Phase0 => epoch_rest f s = (Ok tt, t)
       | _ => epoch_rest f s = process_sync_committee_updates E t
       end.
Proof.
  intros []. pose proof (epoch_small E Hctx s md_slot0) as Hes.
  destruct (C11_registry E f s Hctx Hel md_slot0 md_shape0 md_room0 ltac:(unfold prev_epoch_of in md_fin0; lia)) as (s1 & q & H1 & Q & L1 & N1 & x & y & D1 & _).
  unfold epoch_rest. rewrite (run_bind _ _ _ _ _ H1).
  assert (Hst : stays (epoch_of E s + 1) s s1).
  { intros Hne Ht. apply Hne. destruct (active_set s (epoch_of E s + 1)) as [|i l] eqn:Ha; [reflexivity|]. exfalso.
    assert (Hi : In i (active_set s (epoch_of E s + 1))) by (rewrite Ha; left; reflexivity). unfold active_set, indices_where in Hi. apply filter_In in Hi as [Hi Hv].
    destruct (nthN (validators s) i) as [v|] eqn:Hn; [|discriminate]. destruct (N1 i v Hn) as (v' & Hn' & _ & _ & R1 & R2 & R3).
    assert (Hi' : In i (active_set s1 (epoch_of E s + 1))).
    { unfold active_set, indices_where. apply filter_In. rewrite L1, Hn'. split; [exact Hi|]. unfold active_at in *. apply andb_true_iff in Hv as [V1 V2]. apply N.leb_le in V1. apply N.ltb_lt in V2.
      assert (Hnq : ~ In i (capped (activation_cap E f s) q)).
      { intros Hc. apply capped_sub in Hc. apply Q in Hc as (w & Hw & Hr). rewrite Hn in Hw. injection Hw as <-. unfold activation_ready in Hr. apply andb_true_iff in Hr as [_ Hr].
        apply N.eqb_eq in Hr. rewrite Hr in V1. unfold FAR_FUTURE_EPOCH in V1. pows. lia. }
      rewrite (R2 Hnq). apply andb_true_iff. split; [apply N.leb_le; exact V1|]. apply N.ltb_lt. destruct (ejected E s v); [|lia].
      unfold earliest_exit in R3. unfold mainnet_scale in Hm. lia. }
    rewrite Ht in Hi'. contradiction. }
  assert (Hmap : map v_effective_balance (validators s1) = map v_effective_balance (validators s)).
  { apply stake_ext; [exact L1|]. intros i v Hv. destruct (N1 i v Hv) as (v' & Hv' & (_ & _ & He & _) & _). eauto. }
  set (vs := validators s1) in *. clearbody vs. subst s1. set (s1 := set_validators vs _) in *.
  assert (He1 : forall v, In v vs -> v_effective_balance v <= cap f) by (apply (in_effective (fun x => x <= cap f) vs (validators s) Hmap md_eff0)).
  assert (Hst1 : registered_stake s1 < 2 ^ 57) by (unfold registered_stake, s1; gs; rewrite Hmap; exact md_stake0).
  assert (Heb1 : effective_bounded s1). { intros v Hv. pose proof (He1 v Hv). pose proof (cap_le f). pows. lia. }
  assert (Hab1 : active_balance_fits E s1). { unfold active_balance_fits. pose proof (active_sum_le s1 (epoch_of E s1)). pows. lia. }
  destruct (C30_correlation_penalty E f s1 Hctx md_slot0 ltac:(unfold s1; gs; congruence) Heb1 Hab1 (penalties_fit_scale f s1 He1 Hst1 md_slash0)) as (bs & H2 & L2 & N2).
  rewrite (run_bind _ _ _ _ _ H2).
  assert (Hle : forall i b b', nthN (balances s) i = Some b -> nthN bs i = Some b' -> b' <= b).
  { intros i b b' Hb Hb'. assert (Hi : i < lenN vs) by (rewrite L1, <- md_len0; exact (nthN_some _ _ _ Hb)). destruct (nthN_lt _ _ Hi) as [v Hv].
    rewrite (N2 i v b Hv Hb) in Hb'. injection Hb' as <-. destruct (halfway _ _ _); lia. }
  assert (Hsum : sumN bs <= sumN (balances s)) by (apply sumN_le_nth; [exact L2|exact Hle]).
  set (s2 := set_balances bs s1) in *.
  rewrite (run_bind _ _ _ _ _ (eth1_reset_run E Hctx s2 Hep md_slot0)). set (s3 := if epoch_ends_period _ _ _ then _ else _).
  assert (F3 : state_shape E s3 /\ slot s3 = slot s /\ validators s3 = vs /\ balances s3 = bs /\ pending_balance_deposits s3 = pending_balance_deposits s
    /\ deposit_balance_to_consume s3 = deposit_balance_to_consume s /\ pending_consolidations s3 = pending_consolidations s).
  { assert (state_shape E s2) by (unfold state_shape in *; unfold s2, s1; gs; rewrite L1; exact md_shape0). unfold s3. destruct (epoch_ends_period _ _ _); repeat (split; [first [assumption|reflexivity]|]); reflexivity. }
  destruct F3 as (A1 & A2 & A3 & A4 & A5 & A6 & A7). clearbody s3.
  assert (Hss : slot_small s3) by (unfold slot_small in *; rewrite A2; exact md_slot0).
  assert (Sc : same_schedule s1 s3) by (split; [rewrite A3; reflexivity|]; intros i v Hv; exists v; rewrite A3; auto).
  assert (F4 : exists s4, swhen (fork_le Electra f) (process_pending_balance_deposits E ;; process_pending_consolidations E) s3 = (Ok tt, s4)
    /\ state_shape E s4 /\ slot s4 = slot s /\ same_schedule s1 s4 /\ map v_effective_balance (validators s4) = map v_effective_balance vs
    /\ lenN (balances s4) = lenN (validators s4) /\ forall b, In b (balances s4) -> b < 2 ^ 62).
  { destruct (Fork_eq_dec f Electra) as [->|Hf].
    - destruct (md_q0 eq_refl) as (Q1 & Q2 & Q3). change (fork_le Electra Electra) with true. cbn [swhen].
      assert (Hqs : queue_sound s3).
      { unfold queue_sound. rewrite A3, A4, A5. split; [rewrite L2; unfold s1; gs; congruence|]. split; [intros d Hd; rewrite L2; unfold s1; gs; auto|]. unfold held in md_held0. pows. lia. }
      destruct (queues_run s3 Hss Hqs) as (s4 & G1 & G2 & G3 & G4 & G5 & G6 & G7).
      { unfold registered_stake. rewrite A3. exact Hst1. } { rewrite A6. exact Q2. } { unfold consolidations_sound. rewrite A7, A3, L1. exact Q3. }
      exists s4. split; [exact G1|]. split. { destruct G2. unfold state_shape in *. rewrite sp_br, sp_sr, sp_mix, sp_sl, sp_n, G7. exact A1. }
      split; [destruct G2; congruence|]. split; [eapply schedule_trans; eassumption|]. split; [rewrite G4, A3; reflexivity|].
      split; [destruct G2; rewrite G5, sp_n, A3, A4, L2; unfold s1; gs; congruence|]. unfold total_stake in G6. rewrite A4, A5 in G6. unfold held in md_held0.
      intros b Hb. apply sumN_In in Hb. lia.
    - exists s3. split; [destruct f; try contradiction; reflexivity|]. split; [exact A1|]. split; [exact A2|]. split; [exact Sc|]. rewrite A3, A4. split; [reflexivity|].
      split; [rewrite L2; unfold s1; gs; congruence|]. intros b Hb. apply In_nthN in Hb as [i Hi].
      assert (Hi' : i < lenN (balances s)) by (change (balances s) with (balances s1); rewrite <- L2; exact (nthN_some _ _ _ Hi)). destruct (nthN_lt _ _ Hi') as [b0 Hb0].
      pose proof (Hle i b0 b Hb0 Hi) as Hl0. assert (b0 < 2 ^ 62) by (destruct f; try contradiction; apply md_held0; exact (nthN_In _ _ _ Hb0)). lia. }
  destruct F4 as (s4 & H4 & B1 & B2 & B3 & B4 & B5 & B6). rewrite (run_bind _ _ _ _ _ H4).
  pose proof B6 as Hb4.
  assert (He4 : effective_bounded s4). { unfold effective_bounded. apply (in_effective (fun x => x <= 2 ^ 44) _ _ B4). exact Heb1. }
  destruct (end_run f s4 B1 ltac:(unfold slot_small in *; rewrite B2; exact md_slot0) B5 He4 Hb4) as (t & T1 & T2 & T3 & T4 & T5).
  exists t. split; [exact T1|]. split; [congruence|]. split; [exact T3|]. split; [|exact T5].
  intros Hne. apply (schedule_stays _ s1 t); [eapply schedule_trans; eassumption|]. exact (Hst Hne).
Qed.

(** ** The whole epoch *)
Hypothesis Hatt : ctx_sane_att E.
Hypothesis Hwf : hash_wf (hash E).

Lemma stake_fits_scale s : registered_stake s < 2 ^ 57 -> stake_fits s.
Proof. unfold stake_fits, registered_stake. intros H. eapply N.lt_trans; [exact H|reflexivity]. Qed.
(** justification touches only checkpoints and bits *)
Definition only_checkpoints (s t : BeaconState) : Prop :=
  exists a b c d, t = set_finalized_checkpoint a (set_current_justified_checkpoint b (set_previous_justified_checkpoint c (set_justification_bits d s))) /\ lenN d = 4
    /\ cp_epoch a <= prev_epoch_of E s.
Lemma bits_after_len l a b : lenN l = 4 -> lenN (bits_after l a b) = 4.
Proof. intros H. unfold bits_after. destruct l as [|? [|? [|? [|? [|? ?]]]]]; exact H. Qed.
Lemma just_run f s : within_bounds E f s -> 0 < slot s mod SLOTS_PER_EPOCH E -> votes_recorded E f s ->
  exists t, process_justification_and_finalization E f s = (Ok tt, t) /\ (t = s \/ only_checkpoints s t) /\ cp_epoch (finalized_checkpoint t) <= prev_epoch_of E s.
Proof.
  intros W Hpos Hv. destruct W. destruct wb_finality as (F1 & F2 & F3). pose proof (epoch_small E Hctx s wb_slot) as Hes.
  assert (Hj : justified_small s). { unfold justified_small, prev_epoch_of in *. pows. lia. }
  destruct (C16_process E f s Hctx Hatt Hwf wb_shape wb_slot Hpos Hv (stake_fits_scale s wb_stake) Hj) as [C1 C2].
  destruct (N.le_gt_cases (epoch_of E s) 1) as [Hle|Hgt].
  - exists s. split; [auto|]. split; [auto|]. lia.
  - destruct (C2 Hgt) as (wp & wc & _ & _ & H). exists (finality_after E s (supermajority wp (active_balance E s)) (supermajority wc (active_balance E s))). split; [exact H|].
    set (b := bits_after (justification_bits s) (supermajority wp (active_balance E s)) (supermajority wc (active_balance E s))).
    assert (Hf : cp_epoch (finalized_after E s b) <= prev_epoch_of E s).
    { unfold finalized_after. repeat match goal with |- context [if ?c then _ else _] => destruct c end; lia. }
    split; [|exact Hf]. right. unfold finality_after. fold b. cbv zeta. do 4 eexists. split; [reflexivity|]. split; [|exact Hf].
    apply bits_after_len. destruct wb_shape as (_&_&_&_&H5&_). exact H5.
Qed.

(** bounds before the rewards, after justification and inactivity updates *)
Record pre_rewards (f : Fork) (s : BeaconState) : Prop := mkPre {
  pr_mid_shape : state_shape E s; pr_slot : slot_small s; pr_aligned : registry_aligned f s;
  pr_eff : forall v, In v (validators s) -> v_effective_balance v <= cap f;
  pr_stake : registered_stake s < 2 ^ 57;
  pr_turn : effective_sum s (active_set s (prev_epoch_of E s)) <= 2 * active_balance E s;
  pr_slash : sumN (slashings s) < match f with Electra => 2 ^ 50 | _ => 2 ^ 62 end;
  pr_held : held f s < 2 ^ 61;
  pr_room : registry_room E f s;
  pr_fin : cp_epoch (finalized_checkpoint s) <= prev_epoch_of E s;
  pr_q : f = Electra -> (forall d, In d (pending_balance_deposits s) -> pbd_index d < lenN (balances s)) /\ deposit_balance_to_consume s < 2 ^ 62 /\ consolidations_sound s }.
Lemma just_pre f s t : within_bounds E f s -> (t = s \/ only_checkpoints s t) -> cp_epoch (finalized_checkpoint t) <= prev_epoch_of E s ->
  pre_rewards f t /\ slot t = slot s /\ validators t = validators s /\ inactivity_scores t = inactivity_scores s /\ balances t = balances s
  /\ previous_epoch_attestations t = previous_epoch_attestations s.
Proof.
  intros [] [->|(a & b & c & d & -> & Hd & Ha)] Hf.
  - split; [constructor; assumption|]. auto 10.
  - split; [|repeat split; reflexivity]. constructor; try assumption.
    unfold state_shape in *. gs. destruct wb_shape as (H1&H2&H3&H4&_&H6). auto 10.
Qed.
Lemma inactivity_ok s : registry_aligned Altair s -> cp_epoch (finalized_checkpoint s) <= prev_epoch_of E s -> (forall x, In x (inactivity_scores s) -> x < 2 ^ 22) ->
  exists sc, process_inactivity_updates E s = (Ok tt, set_inactivity_scores sc s) /\ lenN sc = lenN (inactivity_scores s) /\ forall x, In x sc -> x < 2 ^ 23.
Proof.
  intros [_ Hal] Hf Hx. destruct (Hal ltac:(discriminate)) as (A1 & A2 & A3). destruct (N.eq_dec (epoch_of E s) 0) as [He|He].
  - exists (inactivity_scores s). rewrite C34_genesis_epoch by assumption. split; [destruct s; reflexivity|]. split; [reflexivity|]. intros x Hin. specialize (Hx x Hin). pows. lia.
  - destruct (C34_scores E s Hctx He A1 A3 Hf) as (sc & H1 & H2 & H3). { intros x Hin. specialize (Hx x Hin). unfold mainnet_scale in Hm. pows. lia. }
    exists sc. split; [exact H1|]. split; [exact H2|]. intros x Hin. apply In_nthN in Hin as [i Hi].
    assert (Hl : i < lenN (inactivity_scores s)) by (rewrite <- H2; exact (nthN_some _ _ _ Hi)). destruct (nthN_lt _ _ Hl) as [y Hy]. specialize (Hx y (nthN_In _ _ _ Hy)).
    rewrite (H3 i y Hy) in Hi. injection Hi as <-. assert (next_score E s i y <= y + INACTIVITY_SCORE_BIAS E).
    { unfold next_score. destruct (voted_flag E s 1 i), (leaking E s); lia. }
    unfold mainnet_scale in Hm. pows. destruct (eligible_at E s i); lia.
Qed.
(** rewards of altair and later *)
Lemma rewards_ok f s : f <> Phase0 -> pre_rewards f s -> (forall x, In x (inactivity_scores s) -> x < 2 ^ 23) ->
  exists bs, process_rewards_and_penalties E f s = (Ok tt, set_balances bs s) /\ lenN bs = lenN (balances s) /\ sumN bs <= sumN (balances s) + registered_stake s.
Proof.
  intros Hf [] Hx. destruct (N.eq_dec (epoch_of E s) 0) as [He|He].
  - exists (balances s). rewrite C32_genesis_epoch by assumption. split; [destruct s; reflexivity|]. split; [reflexivity|]. lia.
  - assert (Hb : forall b, In b (balances s) -> b < 2 ^ 61) by (intros b Hin; apply sumN_In in Hin; unfold held in *; lia).
    destruct (C32_altair_exact E f s Hctx Hatt Hf He pr_aligned0 pr_fin0 (stake_fits_scale s pr_stake0) (rewards_fit_scale f s pr_eff0 pr_stake0 pr_turn0 Hx Hb)) as (bs & H1 & H2 & H3).
    exists bs. split; [exact H1|]. split; [exact H2|]. destruct pr_aligned0 as [Hl _].
    unfold registered_stake. rewrite <- sumN_zip_add by (rewrite lenN_map; congruence).
    apply sumN_le_nth.
    + rewrite H2, lenN_map. unfold lenN. rewrite combine_length, map_length. unfold lenN in Hl. lia.
    + intros i x y Hix Hiy. assert (Hi : i < lenN (balances s)) by (rewrite <- H2; exact (nthN_some _ _ _ Hiy)). destruct (nthN_lt _ _ Hi) as [b Hb1].
      rewrite (H3 i b Hb1) in Hiy. injection Hiy as <-. rewrite Hl in Hi. destruct (nthN_lt _ _ Hi) as [v Hv].
      rewrite (nthN_zip_add _ _ _ b (v_effective_balance v) Hb1) in Hix by (rewrite nthN_map, Hv; reflexivity). injection Hix as <-.
      pose proof (after_rewards_le f s i b pr_stake0 pr_turn0) as H. rewrite (effective_balance_of_some s i v Hv) in H. exact H.
Qed.
Lemma pre_mid f s bs : pre_rewards f s -> lenN bs = lenN (balances s) -> sumN bs <= sumN (balances s) + registered_stake s -> mid f (set_balances bs s).
Proof.
  intros [] Hl Hs. constructor; try assumption.
  - gs. destruct pr_aligned0. congruence.
  - assert (Hh : held f (set_balances bs s) < 2 ^ 62) by (unfold held in *; gs; pows; lia). destruct f; try exact Hh; intros b Hb; exact (held_bal _ _ b Hh Hb).
  - intros Hf. destruct (pr_q0 Hf) as (A & B & C). split; [|split; assumption]. gs. rewrite Hl. exact A.
Qed.
Lemma epoch_run f s : f <> Phase0 -> within_bounds E f s -> 0 < slot s mod SLOTS_PER_EPOCH E ->
  exists t, state_shape E t /\ slot t = slot s /\ effective_bounded t /\ stays (epoch_of E s + 1) s t /\ process_epoch E f s = process_sync_committee_updates E t.
Proof.
  intros Hf W Hpos.
  assert (Hv : votes_recorded E f s). { destruct W. destruct wb_aligned as [_ H]. destruct (H Hf) as (A & B & _). destruct f; try contradiction; split; assumption. }
  destruct (just_run f s W Hpos Hv) as (s1 & H1 & D1 & F1). destruct (just_pre f s s1 W D1 F1) as (P1 & S1 & V1 & I1 & B1 & _).
  rewrite epoch_rest_eq, (run_bind _ _ _ _ _ H1).
  assert (E1 : prev_epoch_of E s1 = prev_epoch_of E s) by (unfold prev_epoch_of, epoch_of; rewrite S1; reflexivity).
  destruct (inactivity_ok s1) as (sc & H2 & L2 & X2).
  { destruct P1. destruct pr_aligned0 as [A B]. split; [exact A|]. intros _. exact (B Hf). } { rewrite E1. exact F1. } { rewrite I1. apply W. }
  assert (H2' : swhen (fork_le Altair f) (process_inactivity_updates E) s1 = (Ok tt, set_inactivity_scores sc s1)) by (destruct f; try contradiction; exact H2).
  rewrite (run_bind _ _ _ _ _ H2'). set (s2 := set_inactivity_scores sc s1) in *.
  assert (P2 : pre_rewards f s2).
  { destruct P1. constructor; try assumption. destruct pr_aligned0 as [A B]. split; [exact A|]. intros Hf'. destruct (B Hf') as (B2 & B3 & B4). unfold s2. gs. repeat split; congruence. }
  destruct (rewards_ok f s2 Hf P2 X2) as (bs & H3 & L3 & S3). rewrite (run_bind _ _ _ _ _ H3).
  destruct (rest_run f _ (pre_mid f s2 bs P2 L3 S3)) as (t & T1 & T2 & T3 & T4 & T5). exists t. split; [exact T1|]. split; [rewrite T2; exact S1|]. split; [exact T3|].
  split. { intros Hne. unfold stays in T4. assert (Hep' : epoch_of E (set_balances bs s2) = epoch_of E s) by (unfold epoch_of; f_equal; exact S1). rewrite Hep' in T4. apply T4.
    unfold active_set in *. replace (validators (set_balances bs s2)) with (validators s) by (symmetry; exact V1). exact Hne. }
  destruct f; try contradiction; exact T5.
Qed.
(** phase0: rewards are bounded by the numbers of the configuration *)
Lemma base0_le s i : registered_stake s < 2 ^ 57 -> (forall v, In v (validators s) -> v_effective_balance v <= cap Phase0) ->
  base0 E s i <= 16191260 /\ base0 E s i <= effective_balance_of s i.
Proof.
  intros Hst Hc. destruct (active_balance_bounds s Hst) as [Hlo _]. pose proof (eff_of_le Phase0 s i Hc) as He. unfold cap in He. unfold base0.
  assert (Hsq : 31622 <= N.sqrt (active_balance E s)). { change 31622 with (N.sqrt 1000000000). apply N.sqrt_le_mono. exact Hlo. }
  set (r := N.sqrt _) in *. clearbody r. set (x := effective_balance_of s i) in *. clearbody x. pose proof Hm as Hm'. unfold mainnet_scale in Hm'.
  assert (H1 : x * BASE_REWARD_FACTOR E <= x * 64) by (apply N.mul_le_mono_l; lia).
  assert (H2 : x * BASE_REWARD_FACTOR E / r <= x * 64 / 31622). { etransitivity; [apply N.div_le_compat_l; split; [|exact Hsq]; lia|]. apply N.div_le_mono; [lia|exact H1]. }
  assert (H3 : x * BASE_REWARD_FACTOR E / r / 4 <= x * 64 / 31622 / 4) by (apply N.div_le_mono; [lia|exact H2]).
  set (y := x * BASE_REWARD_FACTOR E / r / 4) in *. clearbody y. clear H1 H2 Hsq Hlo. assert (Hx : x <= 32 * 1000000000) by lia. clear - H3 Hx. split; lia.
Qed.
Lemma phase0_fit s : pre_rewards Phase0 s -> epoch_of E s < 2 ^ 28 ->
  rewards_fit_phase0 E s /\ forall i b, nthN (balances s) i = Some b -> b < 2 ^ 61
    /\ b + 3 * (base0 E s i * (1 + N.max (sumN (map v_effective_balance (validators s))) (EFFECTIVE_BALANCE_INCREMENT E) / EFFECTIVE_BALANCE_INCREMENT E))
       + sumN (map (base0 E s) (rangeN (lenN (validators s)))) < 2 ^ 62.
Proof.
  intros [] Hep28.
  assert (Hbal : forall i b, nthN (balances s) i = Some b -> b < 2 ^ 61
    /\ b + 3 * (base0 E s i * (1 + N.max (sumN (map v_effective_balance (validators s))) (EFFECTIVE_BALANCE_INCREMENT E) / EFFECTIVE_BALANCE_INCREMENT E))
       + sumN (map (base0 E s) (rangeN (lenN (validators s)))) < 2 ^ 62).
  { intros i b Hb. assert (Hb1 : b < 2 ^ 61) by (apply nthN_In, sumN_In in Hb; unfold held in *; lia). split; [exact Hb1|].
    destruct (base0_le s i pr_stake0 pr_eff0) as [Hi _].
    assert (Hall : sumN (map (base0 E s) (rangeN (lenN (validators s)))) < 2 ^ 57).
    { eapply N.le_lt_trans; [|exact pr_stake0]. unfold registered_stake. rewrite <- sum_range_validators. apply sum_le_pointwise. intros j _. apply (base0_le s j pr_stake0 pr_eff0). }
    rewrite inc_val. unfold registered_stake in pr_stake0. set (T := sumN (map v_effective_balance _)) in *. set (A := sumN _) in *. clearbody A T.
    assert (Hsh : N.max T 1000000000 / 1000000000 <= 144115188). { clear - pr_stake0. pows. lia. }
    set (S := _ / _) in *. clearbody S. set (B := base0 E s i) in *. clearbody B.
    assert (B * (1 + S) <= 16191260 * 144115189) by (apply N.mul_le_mono; lia). clear - H Hb1 Hall. pows. lia. }
  split; [|exact Hbal]. pose proof Hm as Hm'. unfold mainnet_scale in Hm'. unfold rewards_fit_phase0. cbv zeta.
  assert (Heff : forall i, effective_balance_of s i <= 32 * 1000000000). { intros i. pose proof (eff_of_le Phase0 s i pr_eff0) as He. unfold cap in He. lia. }
  assert (Hd : prev_epoch_of E s - cp_epoch (finalized_checkpoint s) < 2 ^ 28) by (unfold prev_epoch_of; lia). set (D := prev_epoch_of E s - _) in *. clearbody D.
  assert (HD : forall i, effective_balance_of s i * D <= 32 * 1000000000 * 2 ^ 28) by (intros i; apply N.mul_le_mono; [apply Heff|lia]).
  split; [lia|]. split; [lia|]. split; [intros i _|split; [intros i _|split; [intros i _|]]].
  - assert (effective_balance_of s i * BASE_REWARD_FACTOR E <= 32 * 1000000000 * 64) by (apply N.mul_le_mono; [apply Heff|lia]). pows. lia.
  - specialize (HD i). pows. lia.
  - destruct (base0_le s i pr_stake0 pr_eff0) as [Hb _]. specialize (HD i).
    assert (HQ : effective_balance_of s i * D / INACTIVITY_PENALTY_QUOTIENT E <= effective_balance_of s i * D) by (apply N.div_le_upper_bound; [lia|]; set (z := _ * D); assert (1 <= INACTIVITY_PENALTY_QUOTIENT E) by lia; clearbody z; nia).
    set (q := _ / _) in *. clearbody q. pows. lia.
  - intros i b Hb. destruct (Hbal i b Hb) as [_ H]. eapply N.lt_trans; [exact H|reflexivity].
Qed.
Lemma rewards_ok0 s : pre_rewards Phase0 s -> epoch_of E s < 2 ^ 28 -> 0 < slot s mod SLOTS_PER_EPOCH E -> previous_votes_sound E s ->
  exists bs, process_rewards_and_penalties E Phase0 s = (Ok tt, set_balances bs s) /\ lenN bs = lenN (balances s) /\ forall b, In b bs -> b < 2 ^ 62.
Proof.
  intros P Hep28 Hpos Hv. destruct (phase0_fit s P Hep28) as [Hfit Hb]. destruct P. destruct (N.eq_dec (epoch_of E s) 0) as [He|He].
  - exists (balances s). rewrite C32_genesis_epoch by assumption. split; [destruct s; reflexivity|]. split; [reflexivity|]. intros b Hin. apply sumN_In in Hin. unfold held in *. pows. lia.
  - destruct pr_aligned0 as [Hl _].
    destruct (C32_phase0_exact E s Hctx Hatt Hwf pr_mid_shape0 pr_slot0 Hpos He Hl pr_fin0 (stake_fits_scale s pr_stake0) Hfit Hv) as (ls & lt & lh & first & V1 & V2 & V3 & V4 & bs & H1 & H2 & H3).
    exists bs. split; [exact H1|]. split; [exact H2|]. intros b Hin. apply In_nthN in Hin as [i Hi].
    assert (Hi' : i < lenN (balances s)) by (rewrite <- H2; exact (nthN_some _ _ _ Hi)). destruct (nthN_lt _ _ Hi') as [b0 Hb0]. rewrite (H3 i b0 Hb0) in Hi. injection Hi as <-.
    destruct (Hb i b0 Hb0) as [_ Hlt]. eapply N.le_lt_trans; [|exact Hlt]. unfold balance_after_phase0.
    pose proof (gain_bound E Hctx s ls i (proj1 V1) (voters_lt E s _ _ V1)) as G1. pose proof (gain_bound E Hctx s lt i (proj1 V2) (voters_lt E s _ _ V2)) as G2.
    pose proof (gain_bound E Hctx s lh i (proj1 V3) (voters_lt E s _ _ V3)) as G3. pose proof (inclusion_bound E s ls first i Hv V1 V4) as G4.
    set (P := base0 E s i * _) in *. set (A := sumN (map (base0 E s) _)) in *. clearbody P A. set (x := vote_loss _ _ _ _ + _ + _ + _). lia.
Qed.
Lemma epoch_run0 s : within_bounds E Phase0 s -> 0 < slot s mod SLOTS_PER_EPOCH E -> exists t, process_epoch E Phase0 s = (Ok tt, t).
Proof.
  intros W Hpos. destruct (wb_votes _ _ _ W eq_refl) as (W1 & W2 & W3).
  assert (Hv : votes_recorded E Phase0 s). { intros a Ha. apply in_app_or in Ha as [Ha|Ha]; [apply W1; exact Ha|apply W2; exact Ha]. }
  destruct (just_run Phase0 s W Hpos Hv) as (s1 & H1 & D1 & F1). destruct (just_pre Phase0 s s1 W D1 F1) as (P1 & S1 & V1 & I1 & B1 & A1).
  rewrite epoch_rest_eq, (run_bind _ _ _ _ _ H1).
  assert (H2 : swhen (fork_le Altair Phase0) (process_inactivity_updates E) s1 = (Ok tt, s1)) by reflexivity. rewrite (run_bind _ _ _ _ _ H2).
  assert (Hv1 : previous_votes_sound E s1). { destruct D1 as [->|(a & b & c & d & -> & _)]; exact W1. }
  assert (He1 : epoch_of E s1 < 2 ^ 28) by (unfold epoch_of in *; rewrite S1; exact W3).
  assert (Hp1 : 0 < slot s1 mod SLOTS_PER_EPOCH E) by (rewrite S1; exact Hpos).
  destruct (rewards_ok0 s1 P1 He1 Hp1 Hv1) as (bs & H3 & L3 & S3). rewrite (run_bind _ _ _ _ _ H3).
  assert (M : mid Phase0 (set_balances bs s1)).
  { destruct P1. constructor; try assumption. - gs. destruct pr_aligned0. congruence. - intros Hf. discriminate. }
  destruct (rest_run Phase0 _ M) as (t & _ & _ & _ & _ & T5). exists t. exact T5.
Qed.

(** ** Sync committees: sampling may run out of rounds in the model, it does not panic *)
Lemma sync_loop_total s A seed : effective_bounded s -> A <> [] -> lenN A <= 2 ^ 40 -> (forall i, In i A -> i < lenN (validators s)) ->
  forall n r acc, r + N.of_nat n < 2 ^ 60 -> (forall i, In i acc -> In i A) ->
  (exists l, sync_loop E n s seed A r acc = Ok l /\ forall i, In i l -> In i A) \/ sync_loop E n s seed A r acc = Diverge.
Proof.
  intros Heb Hne Hlen Hin. assert (Hpos : 0 < lenN A) by (destruct A; [contradiction|rewrite lenN_cons; lia]).
  assert (Hround : SHUFFLE_ROUND_COUNT E <= 256 /\ 0 < SHUFFLE_ROUND_COUNT E) by (ctxs Hctx; lia).
  induction n as [|n IH]; intros r acc Hr Hacc; cbn [sync_loop]; (destruct (N.leb_spec (SYNC_COMMITTEE_SIZE E) (lenN acc)); [eauto|]); [auto|].
  assert (Hc : exists c b, sync_candidate E s seed A r = Ok (c, b) /\ In c A).
  { unfold sync_candidate. rewrite umod_ok by lia. cbn [rbind].
    assert (Hmod : r mod lenN A < lenN A) by (apply N.mod_lt; lia).
    rewrite compute_shuffled_index_ok; [|exact Hwf|pows; lia|exact Hmod]. cbn [rbind].
    destruct (nthN_lt A (perm E seed (lenN A) (r mod lenN A)) ltac:(apply perm_lt; lia)) as [c Hc]. rewrite (proj2 (idx_ok _ _ _) Hc). cbn [rbind].
    rewrite idx_hash by (assumption || (apply N.mod_lt; lia)). cbn [rbind].
    destruct (nthN_lt (validators s) c (Hin c (nthN_In _ _ _ Hc))) as [v Hv]. rewrite (proj2 (idx_ok _ _ _) Hv). cbn [rbind].
    pose proof (Heb v (nthN_In _ _ _ Hv)) as Hb. unfold mul. rewrite umul_ok by (pows; lia). cbn [rbind].
    set (by_ := nth (N.to_nat (r mod 32)) (hash E (seed ++ to_le 8 (r / 32))) 0) in *.
    assert (Hby : by_ < 256).
    { unfold by_. destruct (Hwf (seed ++ to_le 8 (r / 32))) as [Hl Hf]. rewrite Forall_forall in Hf. apply Hf. apply nth_In. pose proof (N.mod_lt r 32). lia. }
    rewrite umul_ok by (ctxs Hctx; pows; nia). cbn [rbind]. do 2 eexists. split; [reflexivity|]. exact (nthN_In _ _ _ Hc). }
  destruct Hc as (c & b & Hc & Hca). rewrite Hc. cbn [rbind fst snd]. apply IH; [lia|]. intros i Hi. destruct b; [|auto]. apply in_app_or in Hi as [Hi|[<-|[]]]; auto.
Qed.
Lemma next_committee_total s : state_shape E s -> slot_small s -> effective_bounded s -> N.of_nat (fuel E) < 2 ^ 60 -> active_set s (epoch_of E s + 1) <> [] ->
  get_next_sync_committee E s <> Panic.
Proof.
  intros Hsh Hs Heb Hfu HA. pose proof (epoch_small E Hctx s Hs) as Hes. unfold get_next_sync_committee, get_next_sync_committee_indices.
  rewrite current_epoch_ok by exact Hctx. cbn [rbind]. unfold add. rewrite uadd_ok by (pows; lia). cbn [rbind].
  destruct (seed_ok E Hctx s (epoch_of E s + 1) DSyncCommittee Hsh ltac:(pows; lia)) as (mix & _ & Hseed). rewrite Hseed. cbn [rbind]. rewrite get_active_ok.
  set (A := active_set s (epoch_of E s + 1)) in *.
  assert (Hin : forall i, In i A -> i < lenN (validators s)) by apply active_in_range.
  assert (HAl : lenN A <= 2 ^ 40). { destruct Hsh as (_&_&_&_&_&Hv). eapply N.le_trans; [apply active_set_le|exact Hv]. }
  destruct (sync_loop_total s A (hash E (domain_bytes DSyncCommittee ++ to_le 8 (epoch_of E s + 1) ++ mix)) Heb HA HAl Hin (fuel E) 0 [] ltac:(lia) ltac:(intros i [])) as [(l & Hl & Hi)|Hl];
    rewrite Hl; cbn [rbind]; [|discriminate].
  assert (Hp : exists pks, rmap (fun i => let! v := idx (validators s) i in Ok (v_public_key v)) l = Ok pks).
  { clear Hl. induction l as [|i l IH]; [cbn; eauto|]. cbn [rmap]. destruct (nthN_lt (validators s) i (Hin i (Hi i (or_introl eq_refl)))) as [v Hv].
    rewrite (proj2 (idx_ok _ _ _) Hv). cbn [rbind]. destruct IH as [pks ->]; [intros j Hj; apply Hi; right; exact Hj|]. cbn [rbind]. eauto. }
  destruct Hp as [pks ->]. cbn [rbind]. unfold eth_aggregate_public_keys. destruct pks; [discriminate|]. destruct (aggregate_pks E _); discriminate.
Qed.
Lemma sync_update_run t : slot_small t -> process_sync_committee_updates E t
  = if epoch_ends_period E t (EPOCHS_PER_SYNC_COMMITTEE_PERIOD E)
    then match get_next_sync_committee E t with
         | Ok c => (Ok tt, set_current_sync_committee (next_sync_committee t) (set_next_sync_committee c t))
         | Err e => (Err e, t) | Panic => (Panic, t) | Diverge => (Diverge, t) end
    else (Ok tt, t).
Proof.
  intros Hs. unfold process_sync_committee_updates. rewrite (run_rd _ _ _ ((epoch_of E t + 1) mod EPOCHS_PER_SYNC_COMMITTEE_PERIOD E)).
  - unfold epoch_ends_period. destruct (_ =? 0); [|reflexivity]. cbn [swhen]. unfold sbind, rd, lift. destruct (get_next_sync_committee E t); reflexivity.
  - rewrite next_epoch_ok by assumption. cbn [rbind]. apply umod_ok. unfold ctx_sane_epoch in Hep. lia.
Qed.

(** ** Slots *)
Definition only_roots (s t : BeaconState) : Prop :=
  exists br h sr, t = set_block_roots br (set_latest_block_header h (set_state_roots sr s)) /\ lenN br = lenN (block_roots s) /\ lenN sr = lenN (state_roots s).
Lemma slot_ok f s : state_shape E s -> exists t, process_slot E f s = (Ok tt, t) /\ only_roots s t.
Proof.
  intros Hsh. assert (Hp : SLOTS_PER_HISTORICAL_ROOT E <> 0) by (unfold ctx_sane in Hctx; lia).
  set (i := slot s mod SLOTS_PER_HISTORICAL_ROOT E). assert (Hi : i < SLOTS_PER_HISTORICAL_ROOT E) by (apply N.mod_lt; exact Hp).
  unfold process_slot. pose proof (Hhash (OState f s)) as H1. destruct (htr E (OState f s)) as [r|] eqn:Hr; [|contradiction].
  rewrite (run_rd _ _ _ (r, i)).
  2:{ unfold htr_r. rewrite Hr. cbn [ok_or rbind]. rewrite umod_ok by exact Hp. cbn [rbind]. fold i.
      destruct (nthN_lt (state_roots s) i ltac:(destruct Hsh as (_&->&_); exact Hi)) as [x Hx]. rewrite (proj2 (idx_ok _ _ _) Hx). reflexivity. }
  cbn [fst snd]. rewrite !run_md. set (s1 := set_state_roots _ s). cbv beta. set (s2 := if bytes_eqb _ _ then _ else s1).
  assert (H2 : exists h, s2 = set_latest_block_header h s1).
  { unfold s2. destruct (bytes_eqb _ _); [eauto|]. exists (latest_block_header s1). unfold s1. destruct s; reflexivity. }
  destruct H2 as [h H2]. clearbody s2. subst s2.
  pose proof (Hhash (OHeader h)) as H3. destruct (htr E (OHeader h)) as [q|] eqn:Hq; [|contradiction].
  rewrite (run_rd _ _ _ (q, i)).
  2:{ gs. unfold htr_r. rewrite Hq. cbn [ok_or rbind]. change (slot s1) with (slot s). rewrite umod_ok by exact Hp. cbn [rbind]. fold i. change (block_roots s1) with (block_roots s).
      destruct (nthN_lt (block_roots s) i ltac:(destruct Hsh as (->&_); exact Hi)) as [x Hx]. rewrite (proj2 (idx_ok _ _ _) Hx). reflexivity. }
  eexists. split; [reflexivity|]. unfold only_roots. do 3 eexists. split; [reflexivity|]. gs. rewrite !lenN_updN. split; reflexivity.
Qed.
Lemma only_roots_within f s t : only_roots s t -> within_bounds E f s -> within_bounds E f t.
Proof.
  intros (br & h & sr & -> & Hb & Hs) []. constructor; try assumption. unfold state_shape in *. gs. rewrite Hb, Hs. exact wb_shape.
Qed.
Lemma within_next f s n : within_bounds E f s -> n / SLOTS_PER_EPOCH E = epoch_of E s -> n < 2 ^ 56 -> within_bounds E f (set_slot n s).
Proof.
  intros [] Hn Hl. assert (He : epoch_of E (set_slot n s) = epoch_of E s) by exact Hn.
  assert (Hp : prev_epoch_of E (set_slot n s) = prev_epoch_of E s) by (unfold prev_epoch_of; rewrite He; reflexivity).
  assert (Hab : active_balance E (set_slot n s) = active_balance E s) by (unfold active_balance; rewrite He; reflexivity).
  constructor; try assumption.
  - rewrite Hp, Hab. exact wb_turnover.
  - unfold registry_room, exit_room, active_balance_fits, exit_queue_start, earliest_exit in *. rewrite He. destruct f; exact wb_exits.
  - unfold finality_ordered in *. rewrite Hp. exact wb_finality.
  - intros Hf. destruct (wb_votes Hf) as (A & B & C). split; [|split; [exact B|rewrite He; exact C]]. unfold previous_votes_sound in *. rewrite Hp. exact A.
Qed.
Lemma advance_run f s : within_bounds E f s -> slot s + 1 < 2 ^ 56 ->
  exists s1, only_roots s s1 /\
    advance_slot E f s = if (slot s + 1) mod SLOTS_PER_EPOCH E =? 0
      then match process_epoch E f s1 with (Ok _, s2) => (Ok tt, set_slot (slot s + 1) s2) | (r, s2) => (r, s2) end
      else (Ok tt, set_slot (slot s + 1) s1).
Proof.
  intros W Hs. destruct (slot_ok f s (wb_shape _ _ _ W)) as (s1 & H1 & R1). exists s1. split; [exact R1|].
  assert (A1 : slot s1 = slot s) by (destruct R1 as (br & h & sr & -> & _); reflexivity).
  assert (Hsp : SLOTS_PER_EPOCH E <> 0) by (unfold ctx_sane in Hctx; lia).
  unfold advance_slot. rewrite (run_bind _ _ _ _ _ H1). rewrite (run_rd _ _ _ ((slot s + 1) mod SLOTS_PER_EPOCH E)).
  2:{ unfold add. rewrite A1, uadd_ok by (pows; lia). cbn [rbind]. apply umod_ok. exact Hsp. }
  destruct (_ =? 0); cbn [swhen].
  - unfold sbind. destruct (process_epoch E f s1) as [r s2] eqn:He. pose proof (epoch_slot E f _ _ _ He) as A2. destruct r as [[]| | |]; try reflexivity.
    unfold rd, add. rewrite A2, A1, uadd_ok by (pows; lia). reflexivity.
  - rewrite run_ret. rewrite (run_rd _ _ _ (slot s + 1)) by (unfold add; rewrite A1; apply uadd_ok; pows; lia). reflexivity.
Qed.
Definition epoch_start_after (s : BeaconState) : N := (epoch_of E s + 1) * SLOTS_PER_EPOCH E.
Lemma not_boundary s : slot s + 1 < epoch_start_after s -> (slot s + 1) mod SLOTS_PER_EPOCH E <> 0 /\ (slot s + 1) / SLOTS_PER_EPOCH E = epoch_of E s.
Proof.
  intros H. unfold epoch_start_after, epoch_of in *. assert (Hsp : SLOTS_PER_EPOCH E <> 0) by (unfold ctx_sane in Hctx; lia).
  pose proof (N.div_mod (slot s) _ Hsp) as D. pose proof (N.mod_lt (slot s) _ Hsp) as M. set (q := slot s / SLOTS_PER_EPOCH E) in *. set (r := slot s mod SLOTS_PER_EPOCH E) in *. clearbody q r.
  assert (Hlt : r + 1 < SLOTS_PER_EPOCH E) by nia.
  assert (Hq : slot s + 1 = SLOTS_PER_EPOCH E * q + (r + 1)) by lia. split.
  - rewrite <- (N.mod_unique _ _ _ _ Hlt Hq). lia.
  - symmetry. exact (N.div_unique _ _ _ _ Hlt Hq).
Qed.
Lemma boundary s : slot s + 1 = epoch_start_after s -> (slot s + 1) mod SLOTS_PER_EPOCH E = 0 /\ 0 < slot s mod SLOTS_PER_EPOCH E.
Proof.
  intros H. assert (Hsp : 2 <= SLOTS_PER_EPOCH E) by apply Hm. unfold epoch_start_after, epoch_of in *. split; [rewrite H; apply N.mod_mul; lia|].
  pose proof (N.div_mod (slot s) (SLOTS_PER_EPOCH E) ltac:(lia)) as D. set (q := slot s / SLOTS_PER_EPOCH E) in *. nia.
Qed.
(** inside the epoch every slot succeeds and the state stays within bounds *)
Lemma loop_inside f target : forall n s, within_bounds E f s -> slot s + N.of_nat n = target -> target < epoch_start_after s -> target < 2 ^ 56 ->
  exists s', slots_loop E f n target s = (Ok tt, s') /\ within_bounds E f s' /\ slot s' = target /\ validators s' = validators s
    /\ previous_epoch_attestations s' = previous_epoch_attestations s /\ current_epoch_attestations s' = current_epoch_attestations s /\ randao_mixes s' = randao_mixes s.
Proof.
  induction n as [|n IH]; intros s W Hn Ht Hl.
  - exists s. rewrite loop_done by lia. split; [reflexivity|]. split; [exact W|]. split; [lia|auto].
  - rewrite loop_step by lia. destruct (advance_run f s W ltac:(lia)) as (s1 & R1 & H1). destruct (not_boundary s ltac:(lia)) as [B1 B2].
    destruct (N.eqb_spec ((slot s + 1) mod SLOTS_PER_EPOCH E) 0) as [Hz|_]; [contradiction|]. rewrite (run_bind _ _ _ _ _ H1).
    assert (W1 : within_bounds E f (set_slot (slot s + 1) s1)).
    { apply within_next; [exact (only_roots_within f s s1 R1 W)| |lia]. rewrite B2. destruct R1 as (br & h & sr & -> & _). reflexivity. }
    destruct (IH _ W1) as (s' & I1 & I2 & I3 & I4 & I5 & I6 & I7).
    { change (slot (set_slot (slot s + 1) s1)) with (slot s + 1). lia. }
    { unfold epoch_start_after, epoch_of in *. change (slot (set_slot (slot s + 1) s1)) with (slot s + 1). rewrite B2. exact Ht. } { exact Hl. }
    exists s'. split; [exact I1|]. split; [exact I2|]. split; [exact I3|]. rewrite I4, I5, I6, I7. destruct R1 as (br & h & sr & -> & _). auto.
Qed.
(** the boundary itself *)
Lemma loop_boundary f n s : within_bounds E f s -> slot s + N.of_nat (S n) = epoch_start_after s -> epoch_start_after s < 2 ^ 56 ->
  exists s1, within_bounds E f s1 /\ 0 < slot s1 mod SLOTS_PER_EPOCH E /\ slot s1 + 1 = epoch_start_after s /\ epoch_of E s1 = epoch_of E s /\ validators s1 = validators s
    /\ slots_loop E f (S n) (epoch_start_after s) s
       = match process_epoch E f s1 with (Ok _, t) => (Ok tt, set_slot (epoch_start_after s) t) | (r, t) => (r, t) end.
Proof.
  revert s. induction n as [|n IH]; intros s W Hn Hl; set (target := epoch_start_after s) in *.
  - rewrite loop_step by lia. destruct (advance_run f s W ltac:(lia)) as (s1 & R1 & H1). destruct (boundary s ltac:(unfold target in *; lia)) as [B1 B2].
    rewrite B1 in H1. cbn [N.eqb] in H1.
    assert (A1 : slot s1 = slot s /\ validators s1 = validators s) by (destruct R1 as (br & h & sr & -> & _); split; reflexivity). destruct A1 as [A1 A2].
    exists s1. split; [exact (only_roots_within f s s1 R1 W)|]. rewrite A1. split; [exact B2|]. split; [unfold target; lia|]. split; [unfold epoch_of; rewrite A1; reflexivity|]. split; [exact A2|].
    unfold sbind. rewrite H1. destruct (process_epoch E f s1) as [[[]| | |] t]; try reflexivity. replace (slot s + 1) with target by (unfold target; lia).
    apply loop_done. unfold target. gs. lia.
  - rewrite loop_step by lia. destruct (advance_run f s W ltac:(lia)) as (s0 & R1 & H1). destruct (not_boundary s ltac:(unfold target in *; lia)) as [B1 B2].
    destruct (N.eqb_spec ((slot s + 1) mod SLOTS_PER_EPOCH E) 0) as [Hz|_]; [contradiction|]. rewrite (run_bind _ _ _ _ _ H1).
    assert (W1 : within_bounds E f (set_slot (slot s + 1) s0)).
    { apply within_next; [exact (only_roots_within f s s0 R1 W)| |lia]. rewrite B2. destruct R1 as (br & h & sr & -> & _). reflexivity. }
    assert (Hes : epoch_start_after (set_slot (slot s + 1) s0) = target).
    { unfold target, epoch_start_after, epoch_of in *. change (slot (set_slot (slot s + 1) s0)) with (slot s + 1). rewrite B2. reflexivity. }
    destruct (IH _ W1) as (s1 & I1 & I2 & I3 & I4 & I5 & I6).
    { rewrite Hes. change (slot (set_slot (slot s + 1) s0)) with (slot s + 1). unfold target. lia. } { rewrite Hes. exact Hl. }
    rewrite Hes in I3, I6. exists s1. split; [exact I1|]. split; [exact I2|]. split; [exact I3|]. split; [rewrite I4; exact B2|]. split; [|exact I6].
    rewrite I5. destruct R1 as (br & h & sr & -> & _). reflexivity.
Qed.
Lemma epoch_no_panic f s : within_bounds E f s -> 0 < slot s mod SLOTS_PER_EPOCH E ->
  let r := fst (process_epoch E f s) in
  (f = Phase0 \/ epoch_ends_period E s (EPOCHS_PER_SYNC_COMMITTEE_PERIOD E) = false -> r = Ok tt)
  /\ (active_set s (epoch_of E s + 1) <> [] -> N.of_nat (fuel E) < 2 ^ 60 -> r <> Panic).
Proof.
  intros W Hpos r. destruct (Fork_eq_dec f Phase0) as [->|Hf].
  - destruct (epoch_run0 s W Hpos) as [t Ht]. unfold r. rewrite Ht. cbn [fst]. split; [auto|]. intros; discriminate.
  - destruct (epoch_run f s Hf W Hpos) as (t & T1 & T2 & T3 & T4 & T5). unfold r. rewrite T5.
    assert (Hss : slot_small t) by (unfold slot_small; rewrite T2; apply W). rewrite (sync_update_run t Hss).
    assert (Het : epoch_of E t = epoch_of E s) by (unfold epoch_of; rewrite T2; reflexivity).
    assert (Hp : epoch_ends_period E t (EPOCHS_PER_SYNC_COMMITTEE_PERIOD E) = epoch_ends_period E s (EPOCHS_PER_SYNC_COMMITTEE_PERIOD E)) by (unfold epoch_ends_period; rewrite Het; reflexivity).
    rewrite Hp. split.
    + intros [Hx| ->]; [contradiction|reflexivity].
    + intros Hne Hfu. destruct (epoch_ends_period E s _); [|discriminate].
      assert (Hn : get_next_sync_committee E t <> Panic) by (apply next_committee_total; try assumption; rewrite Het; exact (T4 Hne)).
      destruct (get_next_sync_committee E t); cbn [fst]; congruence.
Qed.
End T.

(** ** The correlation penalty overflows *)
Lemma mul_checked (E : Env) x y : chk E = true -> mul E x y = Ok (x * y) \/ mul E x y = Panic.
Proof. intros Hk. unfold mul, umul. rewrite Hk. destruct (_ <? _); auto. Qed.
Lemma slashings_overflow (E : Env) f s i v : ctx_sane E -> chk E = true -> slot_small s -> lenN (balances s) = lenN (validators s) ->
  active_balance_fits E s -> sumN (slashings s) * correlation_multiplier E f < 2 ^ 64 -> sumN (slashings s) < 2 ^ 64 ->
  nthN (validators s) i = Some v -> halfway E s v = true -> 2 ^ 64 <= v_effective_balance v / EFFECTIVE_BALANCE_INCREMENT E * slashed_share E f s ->
  fst (process_slashings E f s) = Panic.
Proof.
  intros Hctx Hk Hs Hlen Hfit Hp1 Hp0 Hv Hh Hov. pose proof (inc_nz E Hctx) as Hi. pose proof (active_balance_pos E Hctx s) as Ht. unfold process_slashings.
  rewrite (run_rd _ _ _ (epoch_of E s)) by (apply current_epoch_ok; exact Hctx).
  rewrite (run_rd _ _ _ (active_balance E s)) by (apply active_balance_ok; assumption).
  rewrite (run_rd _ _ _ (slashed_share E f s)).
  2:{ rewrite multiplier_eq. unfold add, mul. rewrite rfold_sum by (cbn [N.add]; pows; lia).
      cbn [rbind]. rewrite umul_ok by (cbn [N.add]; pows; lia). reflexivity. }
  rewrite (run_rd _ _ _ (lenN (validators s))) by reflexivity.
  assert (Hsp : EPOCHS_PER_SLASHINGS_VECTOR E / 2 <= 4294967296) by (clear - Hctx; ctxs Hctx; apply N.div_le_upper_bound; lia).
  pose proof (epoch_small E Hctx s Hs) as Hes.
  assert (Hadd : add E (epoch_of E s) (EPOCHS_PER_SLASHINGS_VECTOR E / 2) = Ok (epoch_of E s + EPOCHS_PER_SLASHINGS_VECTOR E / 2)) by (unfold add; apply uadd_ok; pows; lia).
  assert (Hloop : forall l s', validators s' = validators s -> lenN (balances s') = lenN (validators s) -> (forall j, In j l -> j < lenN (validators s)) -> In i l ->
    fst (sfor l (slashings_step E (epoch_of E s) (active_balance E s) (slashed_share E f s)) s') = Panic).
  2:{ apply Hloop; auto; [intros j Hj; apply In_rangeN; exact Hj|apply In_rangeN; eapply nthN_some; eauto]. }
  induction l as [|j l IH]; intros s' Hvs Hls Hall Hin; [contradiction|]. rewrite sfor_cons.
  destruct (nthN_lt (validators s) j (Hall j (or_introl eq_refl))) as [w Hw].
  assert (Hrest : j <> i -> forall s1, validators s1 = validators s -> lenN (balances s1) = lenN (validators s) ->
    fst (sfor l (slashings_step E (epoch_of E s) (active_balance E s) (slashed_share E f s)) s1) = Panic).
  { intros Hne s1 H1 H2. apply IH; [exact H1|exact H2|intros k Hkk; apply Hall; right; exact Hkk|]. destruct Hin as [Hin|Hin]; [contradiction|exact Hin]. }
  unfold slashings_step at 1. unfold sbind at 1. rewrite (run_rd _ _ _ w) by (apply idx_ok; rewrite Hvs; exact Hw).
  destruct (N.eq_dec j i) as [Hji|Hne].
  - subst j. assert (w = v) by congruence. subst w. unfold halfway in Hh. apply andb_true_iff in Hh as [H1 H2]. rewrite H1.
    rewrite (run_lift _ _ _ _ Hadd). rewrite N.eqb_sym in H2. rewrite H2. cbn [swhen]. unfold sbind, lift. rewrite udiv_ok by exact Hi. cbn [rbind].
    unfold mul at 1, umul at 1. rewrite (proj2 (N.ltb_ge _ _)) by exact Hov. rewrite Hk. reflexivity.
  - specialize (Hrest Hne). destruct (v_slashed w); [|apply Hrest; assumption].
    rewrite (run_lift _ _ _ _ Hadd). destruct (_ =? _); cbn [swhen]; [|apply Hrest; assumption].
    unfold sbind at 1. unfold lift at 1. rewrite udiv_ok by exact Hi. cbn [rbind].
    destruct (mul_checked E (v_effective_balance w / EFFECTIVE_BALANCE_INCREMENT E) (slashed_share E f s) Hk) as [H1|H1]; rewrite H1; [|reflexivity].
    cbn [rbind]. rewrite udiv_ok by exact Ht. cbn [rbind].
    match goal with |- context [mul E ?a ?b] => destruct (mul_checked E a b Hk) as [H2|H2]; rewrite H2; [|reflexivity] end.
    destruct (nthN_lt (balances s') j) as [b Hb]; [rewrite Hls; apply Hall; left; reflexivity|].
    rewrite (decrease_balance_ok E _ j _ b) by exact Hb. apply Hrest; [exact Hvs|]. gs. rewrite lenN_updN. exact Hls.
Qed.
